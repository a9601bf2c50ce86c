(** Targets with a [usize] of 32 bits. *)
From Coq Require Import Lia ZifyBool ZifyNat.
From Verif Require Import Model.Base Model.Helpers Model.Errors Model.Sections Model.Reader Model.Parser Model.Context Model.Bitmap Model.Product Model.Decoder Model.Word.
From Verif Require Import Spec.ReaderS Spec.ParserS Spec.WordS Proofs.BaseLemmas Proofs.ReaderP Proofs.SectionStreamP Proofs.ExactP Proofs.ParserP Proofs.FileP Proofs.ReadX.
From Verif Require Proofs.DeviceX Proofs.ViewX.
Ltac Zify.zify_post_hook ::= Z.div_mod_to_equations.

Lemma arith32 m z : 0 <= z < 2 ^ 32 -> arith m U32 z = Ret z.
Proof. intros H. unfold arith, in_range. change (min_of U32) with 0. change (max_of U32) with (2 ^ 32 - 1). replace ((0 <=? z) && (z <=? 2 ^ 32 - 1)) with true by lia. reflexivity. Qed.
Lemma wrap32 z : 0 <= z < 2 ^ 32 -> wrap U32 z = z.
Proof. intros H. unfold wrap. cbn [is_signed andb]. change (bits_of U32) with 32. apply Z.mod_small. exact H. Qed.
Lemma bind_ext A B (x : outcome A) (f g : A -> outcome B) : (forall a, x = Ret a -> f a = g a) -> bind x f = bind x g.
Proof. intros H. destruct x as [a| |]; cbn [bind]; try reflexivity. apply H. reflexivity. Qed.
Lemma rbind_ext A B (x : rd A) (f g : A -> rd B) s : (forall a s', x s = Ret (Ok a, s') -> f a s' = g a s') -> rbind x f s = rbind x g s.
Proof. intros H. unfold rbind. apply bind_ext. intros [[a|e] s'] E; [apply H; exact E|reflexivity]. Qed.
Lemma rbind_pure A B (x : outcome A) a (f : A -> rd B) s : x = Ret a -> rbind (rpure x) f s = f a s.
Proof. intros ->. reflexivity. Qed.
Lemma slice32 n s : n < 2 ^ 31 -> wread_slice U32 n s = read_slice n s.
Proof.
  intros H. unfold wread_slice, read_slice, wvec_alloc, vec_alloc. change (max_of U32 / 2) with (2 ^ 31 - 1).
  replace (n <=? 2 ^ 31 - 1) with true by lia. replace (n <=? 2 ^ 63 - 1) with true by lia. reflexivity.
Qed.
Lemma payload32 m size num s : 5 <= size < 2 ^ 31 -> (num = 6 -> 6 <= size) ->
  wread_sect_payload U32 m (size, num) s = read_sect_payload m (size, num) s.
Proof.
  intros H H6. unfold wread_sect_payload, read_sect_payload.
  rewrite (rbind_pure _ _ _ (size - 5) _ s (arith32 m (size - 5) ltac:(lia))). rewrite (rbind_pure _ _ _ (size - 5) _ s (arith_U64_ok m (size - 5) ltac:(lia))).
  destruct ((1 <=? num) && (num <=? 5)).
  - unfold rbind at 1. rewrite slice32 by lia. reflexivity.
  - destruct (Z.eqb_spec num 6) as [E6|E6]; [|reflexivity]. unfold wread_sect6_payload, read_sect6_payload. apply rbind_ext. intros b s' _. specialize (H6 E6).
    rewrite (rbind_pure _ _ _ (size - 5 - 1) _ s' (arith32 m (size - 5 - 1) ltac:(lia))). rewrite (rbind_pure _ _ _ (size - 5 - 1) _ s' (arith_U64_ok m (size - 5 - 1) ltac:(lia))).
    destruct (0 <? size - 5 - 1); [|reflexivity]. unfold rbind. rewrite (slice32 (size - 5 - 1)) by lia. reflexivity.
Qed.
Lemma loop32 m : forall fuel off s, 0 <= off -> 0 <= pos s -> off + Z.max 0 (zlen (data s) - pos s) < 2 ^ 31 ->
  wread_sect0_loop U32 m fuel off s = read_sect0_loop fuel off s.
Proof.
  induction fuel as [|fuel IH]; intros off s Ho Hp Hb; cbn [wread_sect0_loop read_sect0_loop]; [reflexivity|].
  apply rbind_ext. intros buf s1 E.
  assert (K : zlen buf <= Z.max 0 (zlen (data s) - pos s) /\ data s1 = data s /\ pos s1 = pos s + zlen buf).
  { unfold rread, read in E. destruct (sched s) as [|c cs]; injection E as <- <-; cbn [data pos]; unfold zlen in *; rewrite firstn_length, skipn_length; (split; [lia|]; split; [reflexivity|lia]). }
  destruct K as (K1 & K2 & K3). cbv zeta. destruct (Z.ltb_spec (zlen buf) 16) as [L|L]; [reflexivity|].
  apply rbind_ext. intros found s2 E2. assert (s2 = s1) by (unfold rpure in E2; destruct (find_magic buf 0 _); cbn [bind] in E2; congruence). subst s2.
  assert (Ef : find_magic buf 0 (Z.to_nat (zlen buf - 16 + 1)) = Ret found) by (unfold rpure in E2; destruct (find_magic buf 0 _); cbn [bind] in E2; congruence).
  destruct found as [p|].
  - apply rbind_ext. intros u s2 E3. apply rbind_ext. intros w s3 E4. apply rbind_ext. intros ind s4 E5.
    assert (R : 0 <= p /\ p + 16 <= zlen buf).
    { unfold rpure, slice in E4. destruct ((0 <=? p) && (p <=? p + 16) && (p + 16 <=? zlen buf)) eqn:B; cbn [bind] in E4; [lia|discriminate]. }
    rewrite (rbind_pure _ _ _ (off + p)) by (apply arith32; lia). reflexivity.
  - apply rbind_ext. intros u s2 E3. unfold seek_current, seek_to in E3.
    destruct ((0 <=? _) && _); [|discriminate]. injection E3 as <- <-. rewrite (rbind_pure _ _ _ (off + (zlen buf - 16 + 1))) by (apply arith32; lia).
    apply IH; cbn [data pos]; rewrite ?K2; lia.
Qed.
Lemma sect0_32 m s : 0 <= pos s -> Z.max 0 (zlen (data s) - pos s) < 2 ^ 31 -> wread_sect0 U32 m s = read_sect0 s.
Proof. intros Hp H. unfold wread_sect0, read_sect0. apply loop32; lia. Qed.
Lemma loop_end : forall fuel off s s', read_sect0_loop fuel off s = Ret (Ok None, s') -> sched s = [] -> pos s <= zlen (data s) -> 0 <= pos s ->
  data s' = data s /\ sched s' = [] /\ pos s' = zlen (data s).
Proof.
  induction fuel as [|fuel IH]; intros off s s' E Hs Hp H0; cbn [read_sect0_loop] in E; [discriminate|].
  unfold rbind at 1 in E. unfold rread, read in E. rewrite Hs in E. cbn [bind] in E.
  set (k := Z.max 0 (Z.min 4096 (zlen (data s) - pos s))) in *. set (buf := firstn (Z.to_nat k) (skipn (Z.to_nat (pos s)) (data s))) in *.
  assert (Lb : zlen buf = k). { unfold buf, zlen in *. rewrite firstn_length, skipn_length. lia. }
  cbv zeta in E. rewrite Lb in E. destruct (Z.ltb_spec k 16) as [L|L].
  - unfold rret in E. injection E as <-. cbn [data sched pos]. repeat split; auto. lia.
  - unfold rbind at 1 in E. unfold rpure at 1 in E. destruct (find_magic buf 0 _) as [[p|]| |]; cbn [bind] in E; try discriminate.
    + unfold rbind at 1 in E. destruct (seek_current _ _) as [[[u|e] s1]| |]; cbn [bind] in E; try discriminate.
      unfold rbind at 1 in E. destruct (rpure _ _) as [[[w|e] s2]| |]; cbn [bind] in E; try discriminate.
      unfold rbind at 1 in E. destruct (rres _ _) as [[[i|e] s3]| |]; cbn [bind] in E; discriminate.
    + unfold rbind at 1, seek_current, seek_to in E. cbn [pos data sched] in E.
      replace ((0 <=? pos s + k + (k - 16 + 1 - k)) && (pos s + k + (k - 16 + 1 - k) <? 2 ^ 64)) with true in E.
      2:{ symmetry. destruct (_ && _) eqn:B; [reflexivity|]. exfalso. revert E. cbn [bind]. discriminate. }
      cbn [bind] in E. apply IH in E; cbn [data pos sched] in *; auto; lia.
Qed.
Lemma word_read_sect0_end s s' : read_sect0 s = Ret (Ok None, s') -> sched s = [] -> 0 <= pos s <= zlen (data s) ->
  data s' = data s /\ sched s' = [] /\ pos s' = zlen (data s).
Proof. intros E H1 H2. eapply loop_end; [exact E|exact H1| |]; lia. Qed.

(** ** Sections inside the data *)
Definition closed (l : list section) : Prop := forall x, last (map Some l) None = Some x -> s_num x = 8.
Lemma closed_cons x y l : closed (x :: y :: l) -> closed (y :: l).
Proof. intros H z. exact (H z). Qed.
Lemma closed_one x : closed [x] -> s_num x = 8.
Proof. intros H. apply H. reflexivity. Qed.
Lemma body_num d off size num b : body_at d off size num b -> num = 1 \/ num = 2 \/ num = 3 \/ num = 4 \/ num = 5 \/ num = 6 \/ num = 7.
Proof. unfold body_at. cbv zeta. intros (_ & H). intuition lia. Qed.
Lemma body_size d off size num b : body_at d off size num b -> (num = 7 -> 5 <= size) -> 5 <= size /\ (num = 6 -> 6 <= size).
Proof. unfold body_at. cbv zeta. intros (_ & H) H7. intuition lia. Qed.
Lemma inside P d : forall l endp cur e c, tiles P d endp cur l e c -> closed l -> Forall seven_ok l -> l <> [] -> cur <= endp <= zlen d.
Proof.
  induction l as [|x l IH]; intros endp cur e c T C F N; [contradiction|]. apply tiles_inv in T. destruct T as (e1 & c1 & T1 & T2).
  apply Forall_cons_iff in F. destruct F as (Fx & F).
  inversion T1; subst.
  - destruct H as (K1 & (K2 & K3 & _) & _). lia.
  - lia.
  - destruct l as [|y l]. { exfalso. apply closed_one in C. cbn [s_num] in C. apply body_num in H4. lia. }
    specialize (IH _ (cur + be (octets d cur 4)) e c T2 (closed_cons _ _ _ C) F ltac:(discriminate)).
    destruct (body_size _ _ _ _ _ H4 Fx) as (S5 & _). lia.
Qed.

(** ** Step by step *)
Section Step.
  Variables (m : mode) (d : list byte).
  Hypothesis small : zlen d < 2 ^ 31.
  Notation it s := (MkIter sstate s (next_section m)).
  Definition Good (s : sstate) : Prop :=
    exists endp cur l, Inv m d endp cur s /\ Run (it s) (map Ok l) End /\ (l = [] -> endp = cur) /\ cur <= zlen d /\ closed l /\ Forall seven_ok l /\ sched (st_src s) = [].
  Definition Dead (s : sstate) : Prop := data (st_src s) = d /\ sched (st_src s) = [] /\ rest s = 0 /\ pos (st_src s) = zlen d.

  Lemma dead_step s : Dead s -> exists s', next_section m s = Ret (None, s') /\ wnext_section U32 m s = Ret (None, s') /\ Dead s'.
  Proof.
    intros (Hd & Hs & Hr & Hp). unfold next_section, wnext_section. rewrite Hr. cbn [Z.eqb]. unfold next_sect0, wnext_sect0.
    pose proof (zlen_nonneg _ d) as Z0.
    rewrite sect0_32 by (rewrite ?Hd, ?Hp; lia). rewrite wrap32 by lia.
    assert (E : read_sect0 (st_src s) = Ret (Ok None, MkSrc d (zlen d) [])).
    { unfold read_sect0. cbn [read_sect0_loop]. unfold rbind at 1, rread, read. rewrite Hs, Hd, Hp. cbn [bind].
      replace (Z.max 0 (Z.min 4096 (zlen d - zlen d))) with 0 by lia. cbn [Z.to_nat firstn]. cbv zeta. change (zlen (@nil byte)) with 0. cbn [Z.ltb Z.compare]. unfold rret.
      rewrite Z.add_0_r. reflexivity. }
    rewrite E. cbn [bind]. eexists. split; [reflexivity|]. split; [reflexivity|]. repeat split; auto.
  Qed.
  Lemma good_step s : Good s -> exists s' o, next_section m s = Ret (o, s') /\ wnext_section U32 m s = Ret (o, s') /\ (Good s' \/ Dead s').
  Proof.
    intros (endp & cur & l & I & R & L0 & Hc & C & F & Sc). pose proof I as [Hd Hlen Hp Hcur Hend Hrest Hwhole Hck].
    pose proof (zlen_nonneg _ d) as Z0. destruct l as [|x l].
    - specialize (L0 eq_refl). subst endp. cbn [map] in R. inversion R as [it0 it' E| |]; subst it0.
      assert (R0 : rest s = 0) by (rewrite Hrest, Z.sub_diag; reflexivity).
      rewrite next_mk in E. destruct (next_section m s) as [[[r|] s']| |] eqn:En; cbn [bind] in E; try discriminate. exists s', None. split; [reflexivity|].
      unfold next_section, wnext_section in *. rewrite R0 in *. cbn [Z.eqb] in *. unfold next_sect0, wnext_sect0 in *.
      rewrite sect0_32 by (rewrite ?Hd, ?Hp; lia). rewrite wrap32 by lia.
      destruct (read_sect0 (st_src s)) as [[[[[o i]|]|e] s1]| |] eqn:E0; cbn [bind] in En.
      + destruct (arith m U64 _) as [w| |]; cbn [bind] in En; try discriminate. cbv zeta in En. destruct (arith m U64 (w + _)) as [w'| |]; cbn [bind] in En; try discriminate.
        destruct (arith m U64 _) as [w2| |]; cbn [bind] in En; discriminate.
      + injection En as <-. rewrite R0. split; [reflexivity|]. right. destruct (word_read_sect0_end _ _ E0 Sc ltac:(rewrite Hd; lia)) as (D1 & D2 & D3).
        repeat split; cbn [st_src rest]; congruence.
      + discriminate.
      + discriminate.
      + discriminate.
    - cbn [map] in R. revert Hd Hp. inversion R as [| |it0 it' a l' e0 E HR]; subst. intros Hd Hp.
      rewrite next_mk in E. pose proof (next_section_spec m d endp cur s I) as SP.
      destruct (next_section m s) as [[[r|] s1]| |] eqn:En; cbn [bind] in E; try discriminate. injection E as -> <-.
      destruct SP as (e1 & c1 & I1 & T1 & Sc1). specialize (Sc1 Sc).
      destruct (Run_Steps _ _ _ _ HR) as (it2 & St). destruct (steps_tiles m d l s1 it2 e1 c1 I1 St) as (s2 & e2 & c2 & T2 & _ & _ & _).
      apply Forall_cons_iff in F. destruct F as (Fx & F). 
      assert (B : l = [] -> s_num x = 8) by (intros ->; apply closed_one; exact C).
      assert (B2 : l <> [] -> c1 <= e1 <= zlen d).
      { intros N. eapply inside; [exact T2| |exact F|exact N]. destruct l; [contradiction|]. eapply closed_cons; exact C. }
      assert (B3 : cur <= endp <= zlen d).
      { eapply inside; [|exact C|constructor; [exact Fx|exact F]|discriminate]. eapply tiles_cons; [exact T1|exact T2]. }
      assert (Hrest' : rest s = endp - cur) by lia.
      exists s1, (Some (Ok x)). split; [reflexivity|].
      assert (G : Good s1).
      { exists e1, c1, l. split; [exact I1|]. split; [exact HR|].
        split. { intros ->. specialize (B eq_refl). inversion T1; subst; cbn [s_num] in B; try lia. apply body_num in H4. lia. }
        split. { destruct l as [|y l]; [|specialize (B2 ltac:(discriminate)); lia]. specialize (B eq_refl). inversion T1; subst; cbn [s_num] in B; try lia. apply body_num in H4. lia. }
        split. { destruct l; [intros z Hz; discriminate|eapply closed_cons; exact C]. }
        split; [exact F|exact Sc1]. }
      split; [|left; exact G]. clear G. revert En. unfold next_section, wnext_section. rewrite Hrest'.
      destruct (Z.eqb_spec (endp - cur) 0) as [E0|E0]; [|destruct (Z.eqb_spec (endp - cur) 4) as [E4|E4]].
      + assert (endp = cur) by lia. unfold next_sect0, wnext_sect0.
        rewrite Hp. replace (wrap U32 cur) with cur by (symmetry; apply wrap32; lia).
        rewrite sect0_32 by (rewrite ?Hd, ?Hp; lia).
        destruct (read_sect0 (st_src s)) as [[[[[o i]|]|e] s']| |] eqn:Es; cbn [bind]; try (intros En; exact En).
        assert (W : (if whole s =? 0 then cur else whole s) = cur) by (destruct (Z.eqb_spec (whole s) 0); lia). rewrite W. cbv zeta.
        assert (A1 : 0 <= cur + o < 2 ^ 32).
        { destruct (read_sect0_spec (st_src s)) as (r1 & s9 & Er & _ & _ & HP); [lia|rewrite Hd; lia|]. rewrite Es in Er. injection Er as <- <-. rewrite Hd, Hp in HP. cbn [read_sect0_post] in HP.
          destruct HP as ((K1 & (K2 & K3 & _) & _) & _). lia. }
        rewrite (arith32 m (cur + o) A1). rewrite (arith_U64_ok m (cur + o)) by lia. cbn [bind].
        set (t := match i with B0 _ t => t | _ => 0 end).
        destruct (arith m U64 (cur + o + t)) as [w'| |] eqn:Aw; cbn [bind]; try discriminate.
        destruct (arith m U64 (t - 16)) as [r'| |] eqn:Ar; cbn [bind]; try discriminate.
        intros En. injection En as Ex Es1. assert (Hl : l <> []) by (intros ->; specialize (B eq_refl); rewrite <- Ex in B; discriminate). specialize (B2 Hl).
        assert (Bt : 16 <= t /\ cur + o + t <= zlen d).
        { rewrite <- Ex in T1. inversion T1; subst; cbn [t]; lia. }
        rewrite wrap32 by lia. rewrite arith32 by lia. rewrite arith_U64_ok in Aw by lia. injection Aw as <-. cbn [bind].
        rewrite arith32 by lia. rewrite arith_U64_ok in Ar by lia. injection Ar as <-. cbn [bind]. rewrite Ex, Es1. reflexivity.
      + unfold next_sect8, wnext_sect8. destruct (read_sect8 (st_src s)) as [[[[u|]|e] s']| |]; cbn [bind]; try (intros En; exact En).
        destruct Hwhole as [Hwhole|[_ ?]]; [|lia]. rewrite Hrest'.
        rewrite !arith32 by lia. rewrite !arith_U64_ok by lia. intros En. exact En.
      + unfold next_sect, wnext_sect. destruct (read_sect_header (st_src s)) as [[[[[size num]|]|e] s']| |]; cbn [bind]; try (intros En; exact En).
        destruct Hwhole as [Hwhole|[_ ?]]; [|lia]. rewrite Hrest'.
        rewrite (arith32 m (whole s - (endp - cur))) by lia. rewrite (arith_U64_ok m (whole s - (endp - cur))) by lia. cbn [bind].
        destruct (read_sect_payload m (size, num) s') as [[[b|e] s9]| |] eqn:Ep; cbn [bind]; try discriminate.
        destruct (arith m U64 (endp - cur - size)) as [r'| |] eqn:Ar; cbn [bind]; try discriminate.
        intros En. injection En as Ex Es1. assert (Hl : l <> []).
        { intros ->. specialize (B eq_refl). rewrite <- Ex in B, T1. cbn [s_num] in B. inversion T1; subst; try discriminate; try lia. match goal with X : body_at _ _ _ _ _ |- _ => apply body_num in X end. lia. }
        specialize (B2 Hl).
        assert (Bs : 5 <= size <= endp - cur /\ (num = 6 -> 6 <= size)).
        { rewrite <- Ex in T1, Fx. inversion T1; subst; try lia. match goal with X : body_at _ _ _ _ _ |- _ => destruct (body_size _ _ _ _ _ X Fx) end. lia. }
        rewrite payload32 by lia. rewrite Ep. cbn [bind]. rewrite arith32 by lia. rewrite arith_U64_ok in Ar by lia. injection Ar as <-. cbn [bind]. rewrite Ex, Es1. reflexivity.
  Qed.

  Definition Same (a b : sstate) : Prop := a = b /\ (Good b \/ Dead b).
  Lemma same_step a b : Same a b -> AgreeP.agree Same (AgreeP.halts (DeviceX.Given [])) (wnext_section U32 m a) (next_section m b).
  Proof.
    intros (-> & [G|D]); right.
    - destruct (good_step b G) as (s' & o & -> & -> & K). exists s'. split; [reflexivity|]. split; [reflexivity|exact K].
    - destruct (dead_step b D) as (s' & -> & -> & K). exists s'. split; [reflexivity|]. split; [reflexivity|right; exact K].
  Qed.
  Lemma no_fault e : ~ DeviceX.Given [] e.
  Proof. intros (used & f & r & E & _). destruct used; discriminate. Qed.
  Lemma loop_same fuel : forall b c acc, AgreeP.IR Same b c -> exists x, AgreeP.agree (AgreeP.IR Same) (fun _ => False) x (read_loop m fuel c acc) /\ wread_loop U32 m fuel b acc = x.
  Proof.
    induction fuel as [|fuel IH]; intros b c acc R; cbn [wread_loop read_loop]; [eexists; split; [right|]; reflexivity|].
    destruct (AgreeP.inext_agrees (DeviceX.Given []) (wnext_section U32 m) (next_section m) Same same_step b c R) as [(e & b' & _ & G)|K]; [destruct (no_fault e G)|].
    destruct (isub_next (next_section m) c) as [[x c']| |].
    - destruct K as (b' & -> & R'). cbn [bind]. destruct x as [[u|e]|]; [apply IH; exact R'| |]; eexists; (split; [right|reflexivity]); eexists; (split; [reflexivity|exact R']).
    - rewrite K. eexists. split; [right|]; reflexivity.
    - rewrite K. eexists. split; [right|]; reflexivity.
  Qed.
End Step.

Lemma last_app_one A (l : list A) x : last (map Some (l ++ [x])) None = Some x.
Proof. rewrite map_app. cbn [map]. apply last_last. Qed.
Lemma last_app_some A (x : A) k l : l <> [] -> last (k ++ l) x = last l x.
Proof. intros H. induction k as [|z k IH]; [reflexivity|]. cbn [app]. rewrite <- IH. destruct (k ++ l) eqn:E; [destruct k, l; try discriminate; contradiction|reflexivity]. Qed.
Lemma message_closed mm : wf_message mm -> forall l, closed l -> closed (message_sections mm ++ l).
Proof.
  intros (_ & _ & H8 & _) l C. destruct l as [|y l].
  - rewrite app_nil_r. unfold message_sections. intros x E.
    change (ms0 mm :: ms1 mm :: flat_map group_sections (groups mm) ++ [ms8 mm]) with ((ms0 mm :: ms1 mm :: flat_map group_sections (groups mm)) ++ [ms8 mm]) in E.
    rewrite last_app_one in E. injection E as <-. exact H8.
  - intros x E. apply C. rewrite <- E. symmetry. rewrite map_app. apply last_app_some. discriminate.
Qed.
Lemma messages_closed ms : Forall wf_message ms -> closed (flat_map message_sections ms).
Proof. induction 1 as [|mm ms H F IH]; [intros x E; discriminate|]. cbn [flat_map]. apply message_closed; assumption. Qed.

Lemma tiles_seven d : forall l e c e' c', tiles (Checked = Checked) d e c l e' c' -> Forall seven_ok l.
Proof.
  induction l as [|x l IH]; intros e c e' c' T; [constructor|]. apply tiles_inv in T. destruct T as (e1 & c1 & T1 & T2). constructor; [|eapply IH; exact T2].
  inversion T1; subst; unfold seven_ok; cbn [s_num s_size]; intros E7; try discriminate. match goal with X : Checked = Checked -> _ |- _ => specialize (X eq_refl) end. lia.
Qed.
Lemma read_same : forall m fuel d p g, zlen d < 2 ^ 31 -> 0 <= p <= zlen d -> grib2_read m fuel (MkSrc d p []) = Ret (Ok g) ->
  (m = Wrapping -> Forall seven_ok (g_sections g)) -> word_read U32 m fuel (MkSrc d p []) = Ret (Ok g).
Proof.
  intros m fuel d p g Hl Hp H H7.
  destruct (grib2_read_inv m fuel _ g H ltac:(cbn [data]; lia) ltac:(cbn [pos]; lia)) as (R & ms & us & W & Es & _).
  pose proof (Inv_start m d p [] ltac:(lia) Hp) as I.
  assert (H7' : Forall seven_ok (g_sections g)).
  { destruct m; [|apply H7; reflexivity]. destruct (Run_Steps _ _ _ _ R) as (it2 & St).
    destruct (steps_tiles _ _ _ _ _ _ _ I St) as (s2 & e2 & c2 & T & _). exact (tiles_seven d _ _ _ _ _ T). }
  assert (G : Good m d (MkSstate (MkSrc d p []) 0 0)).
  { exists p, p, (g_sections g). split; [exact I|]. split; [exact R|]. split; [reflexivity|]. split; [lia|]. split; [rewrite Es; apply messages_closed; exact W|]. split; [exact H7'|reflexivity]. }
  unfold word_read, grib2_read in *.
  assert (R0 : AgreeP.IR (Same m d) (isub_new (MkSstate (MkSrc d p []) 0 0)) (isub_new (MkSstate (MkSrc d p []) 0 0))).
  { unfold AgreeP.IR, isub_new, AgreeP.VR, v_new. cbn. repeat split; try reflexivity. left. exact G. }
  destruct (loop_same m d Hl fuel _ _ [] R0) as (x & [[]|K] & ->).
  destruct (read_loop m fuel (isub_new (MkSstate (MkSrc d p []) 0 0)) []) as [[r c]| |]; cbn [bind] in H; try discriminate.
  destruct K as (b & -> & V & E1 & _). cbn [bind]. destruct r as [subs|e]; [|discriminate]. rewrite <- H. destruct V as ((-> & _) & _). rewrite E1. reflexivity.
Qed.

(** ** Decoders *)
Definition within (d : list byte) (x : section) : Prop := 0 <= s_offset x /\ s_offset x + s_size x <= zlen d.
Lemma all_within P d : forall l endp cur e c, 0 <= cur -> tiles P d endp cur l e c -> closed l -> Forall seven_ok l -> Forall (within d) l.
Proof.
  induction l as [|x l IH]; intros endp cur e c H0 T C F; [constructor|]. apply tiles_inv in T. destruct T as (e1 & c1 & T1 & T2).
  apply Forall_cons_iff in F. destruct F as (Fx & F).
  assert (C' : closed l) by (destruct l; [intros z Hz; discriminate|eapply closed_cons; exact C]).
  inversion T1; subst.
  - destruct H as (K1 & (K2 & K3 & _) & _). constructor; [unfold within; cbn [s_offset s_size]; lia|]. eapply IH; [|exact T2|exact C'|exact F]. lia.
  - constructor; [unfold within; cbn [s_offset s_size]; lia|]. eapply IH; [|exact T2|exact C'|exact F]. lia.
  - match goal with X : body_at _ _ _ _ _ |- _ => rename X into HB end. destruct (body_size _ _ _ _ _ HB Fx) as (S5 & _).
    constructor; [|eapply IH; [|exact T2|exact C'|exact F]; lia]. unfold within. cbn [s_offset s_size]. split; [exact H0|].
    destruct l as [|y l]. { exfalso. apply closed_one in C. cbn [s_num] in C. apply body_num in HB. lia. }
    pose proof (inside _ _ _ _ _ _ _ T2 C' F ltac:(discriminate)). lia.
Qed.
Lemma as_slice32 m x d s : zlen d < 2 ^ 31 -> within d x -> 5 <= s_size x -> wread_sect_payload_as_slice U32 m x s = read_sect_payload_as_slice m x s.
Proof.
  intros Hl (W1 & W2) H5. unfold wread_sect_payload_as_slice, read_sect_payload_as_slice.
  rewrite (rbind_pure _ _ _ (s_offset x + 5)) by (apply arith32; lia). rewrite (rbind_pure _ _ _ (s_offset x + 5)) by (apply arith_U64_ok; lia).
  apply rbind_ext. intros u s' _. rewrite (rbind_pure _ _ _ (s_size x - 5)) by (apply arith32; lia). rewrite (rbind_pure _ _ _ (s_size x - 5)) by (apply arith_U64_ok; lia).
  apply slice32. lia.
Qed.
Lemma reread32 m x d s : zlen d < 2 ^ 31 -> within d x -> 5 <= s_size x -> wreread U32 m s x = reread_grib m s x.
Proof. intros Hl W H5. unfold wreread, reread_grib, reread. rewrite (as_slice32 m x d s Hl W H5). destruct (read_sect_payload_as_slice m x s) as [[[l|e] s']| |]; reflexivity. Qed.
Lemma try_ext A B (x y : outcome (result A grib_error * src)) (f g : A -> src -> outcome (result B grib_error * src)) : x = y -> (forall a s, f a s = g a s) -> try_src x f = try_src y g.
Proof. intros -> H. unfold try_src. apply bind_ext. intros [[a|e] s] _; [apply H|reflexivity]. Qed.
Lemma decoder32 m d v s : zlen d < 2 ^ 31 -> within d (snd (u_5 v)) -> within d (snd (u_6 v)) -> within d (snd (u_7 v)) ->
  5 <= s_size (snd (u_5 v)) -> 5 <= s_size (snd (u_6 v)) -> 5 <= s_size (snd (u_7 v)) -> word_decoder U32 m s v = decoder_from m s v.
Proof.
  intros Hl W5 W6 W7 H5 H6 H7. unfold word_decoder, decoder_from.
  destruct (s_body (snd (u_3 v))) as [[| | |p3| | | |]|]; try reflexivity. destruct (s_body (snd (u_5 v))) as [[| | | | |p5| |]|]; try reflexivity.
  destruct (s_body (snd (u_6 v))) as [[| | | | | |i|]|]; try reflexivity. apply bind_ext. intros total _. apply try_ext.
  - unfold wdecoder_bitmap, decoder_bitmap. destruct (i =? 0); [|reflexivity]. apply try_ext; [eapply reread32; eassumption|reflexivity].
  - intros b s1. apply bind_ext. intros en _. apply bind_ext. intros te _. apply try_ext; [eapply reread32; eassumption|]. intros l5 s2.
    apply try_ext; [eapply reread32; eassumption|reflexivity].
Qed.

Lemma file_within : forall m fuel d p g, zlen d < 2 ^ 31 -> 0 <= p <= zlen d -> grib2_read m fuel (MkSrc d p []) = Ret (Ok g) ->
  (m = Wrapping -> Forall seven_ok (g_sections g)) -> Forall seven_ok (g_sections g) /\ Forall (within d) (g_sections g).
Proof.
  intros m fuel d p g Hl Hp H H7.
  destruct (grib2_read_inv m fuel _ g H ltac:(cbn [data]; lia) ltac:(cbn [pos]; lia)) as (R & ms & us & W & Es & _).
  pose proof (Inv_start m d p [] ltac:(lia) Hp) as I.
  destruct (Run_Steps _ _ _ _ R) as (it2 & St). destruct (steps_tiles _ _ _ _ _ _ _ I St) as (s2 & e2 & c2 & T & _).
  assert (H7' : Forall seven_ok (g_sections g)).
  { destruct m; [exact (tiles_seven d _ _ _ _ _ T)|apply H7; reflexivity]. }
  split; [exact H7'|]. eapply all_within; [|exact T| |exact H7']; [lia|]. rewrite Es. apply messages_closed. exact W.
Qed.
Lemma decoder_same : forall m fuel d p g, zlen d < 2 ^ 31 -> 0 <= p <= zlen d -> grib2_read m fuel (MkSrc d p []) = Ret (Ok g) ->
  (m = Wrapping -> Forall seven_ok (g_sections g)) ->
  forall w v, In w (g_subs g) -> make_view g w = Some v -> forall m' s, word_decoder U32 m' s v = decoder_from m' s v.
Proof.
  intros m fuel d p g Hl Hp H H7 w v Hw Hv m' s. destruct (file_within m fuel d p g Hl Hp H H7) as (F7 & FW). rewrite Forall_forall in F7, FW.
  destruct (ViewX.file_views m fuel _ g H ltac:(cbn [data]; lia) ltac:(cbn [pos data]; lia) w v Hw Hv) as (_ & _ & _ & _ & (I5 & K5 & N5) & (I6 & K6 & N6) & (I7 & K7 & N7)).
  assert (Z : forall x, header_at d x -> In x (g_sections g) -> s_num x = 5 \/ s_num x = 6 \/ s_num x = 7 -> 5 <= s_size x).
  { intros x (P & HH) Ix Nx. replace (s_num x =? 0) with false in HH by lia. replace (s_num x =? 8) with false in HH by lia.
    destruct HH as (_ & _ & _ & b & _ & HB). destruct (body_size _ _ _ _ _ HB (F7 x Ix)). assumption. }
  cbn [data] in *. eapply decoder32; try exact Hl; auto.
Qed.

(** ** The same program for 64 bits *)
Lemma wrap64 z : 0 <= z < 2 ^ 64 -> wrap U64 z = z.
Proof. intros H. unfold wrap. cbn [is_signed andb]. change (bits_of U64) with 64. apply Z.mod_small. exact H. Qed.
Lemma loop64 m : forall fuel off s, 0 <= off -> 0 <= pos s -> off + Z.max 0 (zlen (data s) - pos s) < 2 ^ 64 ->
  wread_sect0_loop U64 m fuel off s = read_sect0_loop fuel off s.
Proof.
  induction fuel as [|fuel IH]; intros off s Ho Hp Hb; cbn [wread_sect0_loop read_sect0_loop]; [reflexivity|].
  apply rbind_ext. intros buf s1 E.
  assert (K : zlen buf <= Z.max 0 (zlen (data s) - pos s) /\ data s1 = data s /\ pos s1 = pos s + zlen buf).
  { unfold rread, read in E. destruct (sched s) as [|c cs]; injection E as <- <-; cbn [data pos]; unfold zlen in *; rewrite firstn_length, skipn_length; (split; [lia|]; split; [reflexivity|lia]). }
  destruct K as (K1 & K2 & K3). cbv zeta. destruct (Z.ltb_spec (zlen buf) 16) as [L|L]; [reflexivity|].
  apply rbind_ext. intros found s2 E2. assert (s2 = s1) by (unfold rpure in E2; destruct (find_magic buf 0 _); cbn [bind] in E2; congruence). subst s2.
  destruct found as [p|].
  - apply rbind_ext. intros u s2 E3. apply rbind_ext. intros w s3 E4. apply rbind_ext. intros ind s4 E5.
    assert (R : 0 <= p /\ p + 16 <= zlen buf).
    { unfold rpure, slice in E4. destruct ((0 <=? p) && (p <=? p + 16) && (p + 16 <=? zlen buf)) eqn:B; cbn [bind] in E4; [lia|discriminate]. }
    rewrite (rbind_pure _ _ _ (off + p)) by (apply arith_U64_ok; lia). reflexivity.
  - apply rbind_ext. intros u s2 E3. unfold seek_current, seek_to in E3.
    destruct ((0 <=? _) && _); [|discriminate]. injection E3 as <- <-. rewrite (rbind_pure _ _ _ (off + (zlen buf - 16 + 1))) by (apply arith_U64_ok; lia).
    apply IH; cbn [data pos]; rewrite ?K2; lia.
Qed.
Lemma step64 : forall m s, 0 <= pos (st_src s) < 2 ^ 64 -> zlen (data (st_src s)) < 2 ^ 63 -> wnext_section U64 m s = next_section m s.
Proof.
  intros m s Hp Hl. unfold wnext_section, next_section. destruct (rest s =? 0); [|reflexivity].
  unfold wnext_sect0, next_sect0. rewrite wrap64 by exact Hp. unfold wread_sect0. rewrite loop64 by lia. fold (read_sect0 (st_src s)).
  destruct (read_sect0_spec (st_src s)) as (r & s1 & -> & _ & _ & HP); [lia|lia|]. cbn [bind]. destruct r as [[[o b]|]|e]; try reflexivity.
  cbn [read_sect0_post] in HP. destruct HP as (_ & _ & -> & _). rewrite wrap64 by (apply (octets_be_range _ _ 8); lia). reflexivity.
Qed.

(** ** A data section shorter than its header *)
Lemma arith32_w z : arith Wrapping U32 z = Ret (z mod 2 ^ 32).
Proof.
  unfold arith, in_range. change (min_of U32) with 0. change (max_of U32) with (2 ^ 32 - 1). destruct ((0 <=? z) && (z <=? 2 ^ 32 - 1)) eqn:E.
  - rewrite Z.mod_small by lia. reflexivity.
  - reflexivity.
Qed.
Lemma past_end s : zlen (data (st_src s)) <= pos (st_src s) -> 0 <= pos (st_src s) -> forall m, exists s2, wnext_section U32 m s = Ret (None, s2).
Proof.
  intros H H0 m. unfold wnext_section. 
  assert (E : forall n, exists s1, rread n (st_src s) = Ret (Ok [], s1)).
  { intros n. unfold rread, read. replace (Z.max 0 (Z.min n (zlen (data (st_src s)) - pos (st_src s)))) with 0 by lia.
    destruct (sched (st_src s)) as [|c cs]; [|replace (Z.min 0 (Z.max 1 c)) with 0 by lia]; eexists; reflexivity. }
  destruct (rest s =? 0); [|destruct (rest s =? 4)].
  - unfold wnext_sect0, wread_sect0. cbn [wread_sect0_loop]. destruct (E 4096) as (s1 & E1). unfold rbind at 1. rewrite E1. cbn [bind]. change (zlen (@nil byte)) with 0. eexists. reflexivity.
  - unfold wnext_sect8, read_sect8, read_checked. destruct (E 4) as (s1 & E1). unfold rbind at 1 2. rewrite E1. eexists. reflexivity.
  - unfold wnext_sect, read_sect_header, read_checked. destruct (E 5) as (s1 & E1). unfold rbind at 1 2. rewrite E1. eexists. reflexivity.
Qed.
Lemma back_step : forall s, let d := data (st_src s) in let cur := pos (st_src s) in
  zlen d < 2 ^ 31 -> 0 <= cur -> cur + 5 <= zlen d -> sched (st_src s) = [] -> be (octets d cur 4) < 5 -> be (octets d (cur + 4) 1) = 7 -> rest s <> 0 -> rest s <> 4 ->
  exists x s1 s2, wnext_section U32 Wrapping s = Ret (Some (Ok x), s1) /\ s_num x = 7 /\ s_size x = be (octets d cur 4) /\ wnext_section U32 Wrapping s1 = Ret (None, s2).
Proof.
  intros s d cur Hl Hc H5 Sc Hs H7 R0 R4. unfold wnext_section at 1. replace (rest s =? 0) with false by lia. replace (rest s =? 4) with false by lia.
  unfold wnext_sect. destruct (read_sect_header_spec (st_src s) Hc) as (r & s' & -> & Hd & Hsc & HP). cbn [bind]. fold d cur in HP, Hd.
  destruct r as [[h|]|e].
  2:{ destruct HP. lia. } 2:{ destruct HP as (_ & HP & _). specialize (HP Sc). lia. }
  destruct HP as (-> & _ & Hp). rewrite H7. rewrite arith32_w. cbn [bind]. unfold wread_sect_payload.
  pose proof (be_range (octets d cur 4)) as Rg.
  rewrite (rbind_pure _ _ _ ((be (octets d cur 4) - 5) mod 2 ^ 32)) by apply arith32_w.
  change ((1 <=? 7) && (7 <=? 5)) with false. change (7 =? 6) with false. change (7 =? 7) with true. cbv iota.
  set (n := be (octets d cur 4)) in *. assert (En : (n - 5) mod 2 ^ 32 = n - 5 + 2 ^ 32) by lia. rewrite En. unfold skip_sect7_payload, rbind, seek_current, seek_to.
  replace (wrap I64 (n - 5 + 2 ^ 32)) with (n - 5 + 2 ^ 32).
  2:{ unfold wrap. change (bits_of I64) with 64. cbn [is_signed andb]. rewrite (Z.mod_small (n - 5 + 2 ^ 32)) by lia. change (64 - 1) with 63. replace (2 ^ 63 <=? n - 5 + 2 ^ 32) with false by lia. reflexivity. }
  rewrite Hp. replace ((0 <=? cur + 5 + (n - 5 + 2 ^ 32)) && (cur + 5 + (n - 5 + 2 ^ 32) <? 2 ^ 64)) with true by lia. cbn [bind]. unfold rret. cbn [bind].
  rewrite arith32_w. cbn [bind].
  match goal with |- context [Ret (Some (Ok ?x), ?s1)] => destruct (past_end s1) with (m := Wrapping) as (s2 & E2); [cbn [st_src data pos]; rewrite Hd; fold d; lia|cbn [st_src pos]; lia|exists x, s1, s2] end.
  split; [reflexivity|]. split; [reflexivity|]. split; [reflexivity|]. exact E2.
Qed.
