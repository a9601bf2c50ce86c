From Coq Require Import Lia ZifyBool ZifyNat.
From Verif Require Import Model.Base.
Ltac Zify.zify_post_hook ::= Z.div_mod_to_equations.

Lemma bz_range : forall b, 0 <= bz b < 256.
Proof. intros b. unfold bz. pose proof (Strings.Byte.to_N_bounded b). lia. Qed.

Lemma bz_zb : forall z, bz (zb z) = z mod 256.
Proof.
  intros z. unfold zb.
  assert (H : 0 <= z mod 256 < 256) by (apply Z.mod_pos_bound; lia).
  set (r := z mod 256) in *. clearbody r.
  destruct (Strings.Byte.of_N (Z.to_N r)) as [b|] eqn:E.
  - apply Strings.Byte.to_of_N in E. unfold bz. rewrite E. lia.
  - apply Strings.Byte.of_N_None_iff in E. lia.
Qed.

Lemma zb_bz : forall b, zb (bz b) = b.
Proof.
  intros b. unfold zb. rewrite Z.mod_small by apply bz_range.
  unfold bz. rewrite N2Z.id. rewrite Strings.Byte.of_to_N. reflexivity.
Qed.

Lemma bz_zb_small : forall z, 0 <= z < 256 -> bz (zb z) = z.
Proof. intros z H. rewrite bz_zb. apply Z.mod_small. exact H. Qed.

Lemma bz_inj : forall a b, bz a = bz b -> a = b.
Proof. intros a b H. rewrite <- (zb_bz a), <- (zb_bz b). now rewrite H. Qed.

Lemma zlen_nonneg : forall A (l : list A), 0 <= zlen l.
Proof. intros. unfold zlen. lia. Qed.
Lemma zlen_app : forall A (l l' : list A), zlen (l ++ l') = zlen l + zlen l'.
Proof. intros. unfold zlen. rewrite app_length. lia. Qed.
Lemma zlen_cons : forall A (a : A) l, zlen (a :: l) = 1 + zlen l.
Proof. intros. unfold zlen. cbn [length]. lia. Qed.
Lemma zlen_nil : forall A, zlen (@nil A) = 0.
Proof. reflexivity. Qed.
Lemma zlen_repeat : forall A (a : A) n, zlen (repeat a n) = Z.of_nat n.
Proof. intros. unfold zlen. rewrite repeat_length. reflexivity. Qed.
Lemma zlen_map : forall A B (f : A -> B) l, zlen (map f l) = zlen l.
Proof. intros. unfold zlen. rewrite map_length. reflexivity. Qed.
#[export] Hint Rewrite zlen_app zlen_cons zlen_nil zlen_repeat zlen_map : zlen.

(** Powers of two at the widths in use. *)
Lemma p7 : 2 ^ 7 = 128. Proof. reflexivity. Qed.
Lemma p8 : 2 ^ 8 = 256. Proof. reflexivity. Qed.
Lemma p15 : 2 ^ 15 = 32768. Proof. reflexivity. Qed.
Lemma p16 : 2 ^ 16 = 65536. Proof. reflexivity. Qed.
Lemma p31 : 2 ^ 31 = 2147483648. Proof. reflexivity. Qed.
Lemma p32 : 2 ^ 32 = 4294967296. Proof. reflexivity. Qed.
Lemma p63 : 2 ^ 63 = 9223372036854775808. Proof. reflexivity. Qed.
Lemma p64 : 2 ^ 64 = 18446744073709551616. Proof. reflexivity. Qed.

Lemma in_range_spec : forall t z, in_range t z = true <-> min_of t <= z <= max_of t.
Proof. intros. unfold in_range. lia. Qed.

Lemma arith_ok : forall m t z, min_of t <= z <= max_of t -> arith m t z = Ret z.
Proof.
  intros m t z H. unfold arith.
  apply in_range_spec in H. rewrite H. reflexivity.
Qed.

Lemma arith_checked : forall t z,
  arith Checked t z = if in_range t z then Ret z else Panic.
Proof. reflexivity. Qed.

Lemma arith_wrapping : forall t z, arith Wrapping t z = Ret (if in_range t z then z else wrap t z).
Proof. intros. unfold arith. destruct (in_range t z); reflexivity. Qed.

Lemma bits_of_pos : forall t, 8 <= bits_of t.
Proof. destruct t; cbn; lia. Qed.

Lemma wrap_unsigned : forall t z, is_signed t = false -> wrap t z = z mod 2 ^ bits_of t.
Proof. intros t z H. unfold wrap. rewrite H. reflexivity. Qed.

Lemma pow_bits_half : forall t, 2 ^ bits_of t = 2 * 2 ^ (bits_of t - 1).
Proof. destruct t; reflexivity. Qed.

Lemma wrap_id : forall t z, min_of t <= z <= max_of t -> wrap t z = z.
Proof.
  intros t z H. unfold wrap.
  assert (P : 0 < 2 ^ (bits_of t - 1)) by (destruct t; reflexivity).
  pose proof (pow_bits_half t) as E.
  unfold min_of, max_of in H. destruct (is_signed t) eqn:S; cbn [andb].
  - destruct (Z.neg_nonneg_cases z) as [Hn|Hn].
    + assert (Em : z mod 2 ^ bits_of t = z + 2 ^ bits_of t).
      { symmetry. apply (Z.mod_unique _ _ (-1)); lia. }
      rewrite Em. destruct (Z.leb_spec (2 ^ (bits_of t - 1)) (z + 2 ^ bits_of t)); lia.
    + rewrite Z.mod_small by lia.
      destruct (Z.leb_spec (2 ^ (bits_of t - 1)) z); lia.
  - apply Z.mod_small. lia.
Qed.

Lemma shift_amount_ok : forall m t k, 0 <= k < bits_of t -> shift_amount m t k = Ret k.
Proof.
  intros m t k H. unfold shift_amount.
  replace ((0 <=? k) && (k <? bits_of t)) with true by lia. reflexivity.
Qed.

Lemma shl_ok : forall m t x k, 0 <= k < bits_of t -> shl m t x k = Ret (wrap t (x * 2 ^ k)).
Proof.
  intros m t x k H. unfold shl. rewrite shift_amount_ok by exact H. cbn [bind].
  rewrite Z.shiftl_mul_pow2 by lia. reflexivity.
Qed.

Lemma shr_ok : forall m t x k, 0 <= k < bits_of t -> shr m t x k = Ret (x / 2 ^ k).
Proof.
  intros m t x k H. unfold shr. rewrite shift_amount_ok by exact H. cbn [bind].
  rewrite Z.shiftr_div_pow2 by lia. reflexivity.
Qed.

(** ** Big-endian values *)

Lemma be_fold : forall l a, fold_left (fun acc b => acc * 256 + bz b) l a
  = a * 256 ^ zlen l + fold_left (fun acc b => acc * 256 + bz b) l 0.
Proof.
  induction l as [|x l IH]; intros a; cbn [fold_left].
  - rewrite zlen_nil. change (256 ^ 0) with 1. ring.
  - rewrite IH, (IH (0 * 256 + bz x)), zlen_cons, Z.pow_add_r by (pose proof (zlen_nonneg _ l); lia).
    change (256 ^ 1) with 256. ring.
Qed.

Lemma be_nil : be [] = 0.
Proof. reflexivity. Qed.

Lemma be_cons : forall x l, be (x :: l) = bz x * 256 ^ zlen l + be l.
Proof. intros. unfold be. cbn [fold_left]. rewrite be_fold. ring. Qed.

Lemma be_app : forall l l', be (l ++ l') = be l * 256 ^ zlen l' + be l'.
Proof.
  induction l as [|x l IH]; intros l'.
  - reflexivity.
  - cbn [app]. rewrite !be_cons, IH, zlen_app, Z.pow_add_r by apply zlen_nonneg. ring.
Qed.

Lemma be_range : forall l, 0 <= be l < 256 ^ zlen l.
Proof.
  induction l as [|x l IH].
  - rewrite be_nil, zlen_nil. cbn. lia.
  - rewrite be_cons, zlen_cons, Z.pow_add_r by (pose proof (zlen_nonneg _ l); lia).
    pose proof (bz_range x). change (256 ^ 1) with 256. nia.
Qed.

(** ** Slices *)

Lemma slice_ok : forall A (data : list A) a b,
  0 <= a -> a <= b -> b <= zlen data ->
  slice data a b = Ret (firstn (Z.to_nat (b - a)) (skipn (Z.to_nat a) data)).
Proof.
  intros A data a b Ha Hab Hb. unfold slice.
  replace ((0 <=? a) && (a <=? b) && (b <=? zlen data)) with true by lia. reflexivity.
Qed.

Lemma slice_panic : forall A (data : list A) a b,
  ~ (0 <= a <= b /\ b <= zlen data) -> slice data a b = Panic.
Proof.
  intros A data a b H. unfold slice.
  replace ((0 <=? a) && (a <=? b) && (b <=? zlen data)) with false by lia. reflexivity.
Qed.

Lemma slice_app_mid : forall A (l1 l2 l3 : list A),
  slice (l1 ++ l2 ++ l3) (zlen l1) (zlen l1 + zlen l2) = Ret l2.
Proof.
  intros. rewrite slice_ok.
  - f_equal. unfold zlen. rewrite Nat2Z.id.
    replace (Z.to_nat (Z.of_nat (length l1) + Z.of_nat (length l2) - Z.of_nat (length l1)))
      with (length l2) by lia.
    rewrite skipn_app, skipn_all, Nat.sub_diag. cbn [skipn app].
    rewrite firstn_app, firstn_all, Nat.sub_diag. cbn [firstn]. apply app_nil_r.
  - apply zlen_nonneg.
  - pose proof (zlen_nonneg _ l2). lia.
  - rewrite !zlen_app. pose proof (zlen_nonneg _ l3). lia.
Qed.

Lemma slice_split : forall A (l1 l2 l3 : list A) a b,
  a = zlen l1 -> b = zlen l1 + zlen l2 -> slice (l1 ++ l2 ++ l3) a b = Ret l2.
Proof. intros; subst. apply slice_app_mid. Qed.

Lemma slice_inv : forall A (data : list A) a b s, slice data a b = Ret s ->
  0 <= a <= b /\ b <= zlen data /\ zlen s = b - a /\
  exists l1 l3, data = l1 ++ s ++ l3 /\ zlen l1 = a.
Proof.
  intros A data a b s H. unfold slice in H.
  destruct ((0 <=? a) && (a <=? b) && (b <=? zlen data)) eqn:E; [|discriminate].
  assert (Hs : s = firstn (Z.to_nat (b - a)) (skipn (Z.to_nat a) data)) by congruence.
  clear H.
  assert (L : zlen s = b - a).
  { rewrite Hs. unfold zlen in *. rewrite firstn_length, skipn_length. lia. }
  split; [lia|]. split; [lia|]. split; [exact L|].
  exists (firstn (Z.to_nat a) data), (skipn (Z.to_nat (b - a)) (skipn (Z.to_nat a) data)).
  split.
  - rewrite Hs, firstn_skipn, firstn_skipn. reflexivity.
  - unfold zlen in *. rewrite firstn_length. lia.
Qed.

Lemma index_ok : forall A (l1 l2 : list A) x i, i = zlen l1 -> index (l1 ++ x :: l2) i = Ret x.
Proof.
  intros A l1 l2 x i H. unfold index. pose proof (zlen_nonneg _ l1).
  replace (0 <=? i) with true by lia. subst i. unfold zlen. rewrite Nat2Z.id.
  rewrite nth_error_app2 by lia. rewrite Nat.sub_diag. reflexivity.
Qed.

Lemma list_split_at : forall A (l : list A) i, 0 <= i <= zlen l ->
  exists l1 l2, l = l1 ++ l2 /\ zlen l1 = i.
Proof.
  intros A l i H. exists (firstn (Z.to_nat i) l), (skipn (Z.to_nat i) l).
  split. { symmetry. apply firstn_skipn. }
  unfold zlen in *. rewrite firstn_length. lia.
Qed.

Lemma list_split_elem : forall A (l : list A) i, 0 <= i < zlen l ->
  exists l1 x l2, l = l1 ++ x :: l2 /\ zlen l1 = i.
Proof.
  intros A l i H. destruct (list_split_at A l i) as (l1 & l2 & E & L); [lia|].
  destruct l2 as [|x l2].
  - subst l. rewrite app_nil_r in H. lia.
  - eauto.
Qed.

(** ** Iterators *)

Lemma next_mk : forall A S (s : S) (st : S -> outcome (option A * S)),
  next (MkIter S s st) = let! (o, s') := st s in Ret (o, MkIter S s' st).
Proof. intros. unfold next. cbn [icur istep ist]. destruct (st s) as [[o s']| |]; reflexivity. Qed.

Lemma next_iter_of_list : forall A (l : list A),
  next (iter_of_list l) = Ret (hd_error l, iter_of_list (tl l)).
Proof. intros A [|a l]; reflexivity. Qed.

Lemma Run_iter_of_list : forall A (l : list A), Run (iter_of_list l) l End.
Proof.
  induction l as [|a l IH].
  - eapply Run_end. reflexivity.
  - eapply Run_cons; [reflexivity|]. exact IH.
Qed.

Lemma Run_det : forall A (it : iter A) l e, Run it l e -> forall l' e', Run it l' e' -> l = l' /\ e = e'.
Proof.
  intros A it l e H. induction H as [it it' Hn|it Hn|it it' a l e Hn HR IH]; intros l' e' H'.
  - inversion H' as [x x' Hx|x Hx|x x' a' l'' e'' Hx HR']; subst; try congruence. auto.
  - inversion H' as [x x' Hx|x Hx|x x' a' l'' e'' Hx HR']; subst; try congruence. auto.
  - inversion H' as [x x' Hx|x Hx|x x' a' l'' e'' Hx HR']; subst; try congruence.
    rewrite Hn in Hx. inversion Hx; subst.
    apply IH in HR'. destruct HR' as [-> ->]. auto.
Qed.

Lemma Run_collect : forall A (it : iter A) l, Run it l End ->
  collect (S (length l)) it = Ret l.
Proof.
  intros A it l H. remember End as e eqn:Ee.
  induction H as [it it' Hn|it Hn|it it' a l e Hn HR IH]; try discriminate.
  - cbn [length collect]. rewrite Hn. reflexivity.
  - cbn [length]. cbn [collect]. rewrite Hn. cbn [bind]. cbn [collect] in IH.
    rewrite (IH Ee). reflexivity.
Qed.

Lemma collect_Run : forall A fuel (it : iter A) l, collect fuel it = Ret l -> Run it l End.
Proof.
  intros A fuel. induction fuel as [|fuel IH]; intros it l H; [discriminate|].
  cbn [collect] in H. destruct (next it) as [[[a|] it']| |] eqn:Hn; cbn [bind] in H; try discriminate.
  - destruct (collect fuel it') as [l'| |] eqn:Hc; cbn [bind] in H; try discriminate.
    injection H as <-. eapply Run_cons; eauto.
  - injection H as <-. eapply Run_end; eauto.
Qed.

Lemma Run_imap : forall A B (f : A -> outcome B) (it : iter A) l, Run it l End ->
  forall l', Forall2 (fun a b => f a = Ret b) l l' -> Run (imap f it) l' End.
Proof.
  intros A B f it l H. remember End as e eqn:Ee.
  induction H as [it it' Hn|it Hn|it it' a l e Hn HR IH]; intros l' HF; try discriminate.
  - inversion HF; subst. unfold next in Hn.
    destruct (istep it (icur it)) as [[o s]| |] eqn:Hs; try discriminate. injection Hn as -> <-.
    eapply Run_end. unfold imap. rewrite next_mk. rewrite Hs. reflexivity.
  - inversion HF as [|a0 b l0 l0' Hab HF']; subst. unfold next in Hn.
    destruct (istep it (icur it)) as [[o s]| |] eqn:Hs; try discriminate. injection Hn as -> <-.
    eapply Run_cons.
    + unfold imap. rewrite next_mk. rewrite Hs. cbn [bind]. rewrite Hab. reflexivity.
    + exact (IH eq_refl l0' HF').
Qed.

Lemma Run_imap_total : forall A B (f : A -> B) (it : iter A) l, Run it l End ->
  Run (imap (fun a => Ret (f a)) it) (map f l) End.
Proof.
  intros. eapply Run_imap; eauto. clear. induction l; cbn [map]; constructor; auto.
Qed.

Lemma Run_itake : forall A (it : iter A) l, Run it l End -> forall n, 0 <= n ->
  Run (itake n it) (firstn (Z.to_nat n) l) End.
Proof.
  intros A it l H. remember End as e eqn:Ee.
  induction H as [it it' Hn|it Hn|it it' a l e Hn HR IH]; intros n Hp; try discriminate.
  - rewrite firstn_nil. unfold next in Hn.
    destruct (istep it (icur it)) as [[o s]| |] eqn:Hs; try discriminate. injection Hn as -> <-.
    unfold itake. destruct (Z.leb_spec n 0) as [Hle|Hle].
    + eapply Run_end. rewrite next_mk. replace (n <=? 0) with true by lia. reflexivity.
    + eapply Run_end. rewrite next_mk. replace (n <=? 0) with false by lia. rewrite Hs. reflexivity.
  - unfold next in Hn.
    destruct (istep it (icur it)) as [[o s]| |] eqn:Hs; try discriminate. injection Hn as -> <-.
    subst e. destruct (Z.leb_spec n 0) as [Hle|Hle].
    + replace (Z.to_nat n) with 0%nat by lia. cbn [firstn]. eapply Run_end. unfold itake.
      rewrite next_mk. replace (n <=? 0) with true by lia. reflexivity.
    + replace (Z.to_nat n) with (S (Z.to_nat (n - 1))) by lia. cbn [firstn].
      eapply Run_cons.
      * unfold itake. rewrite next_mk. replace (n <=? 0) with false by lia. rewrite Hs. reflexivity.
      * apply (IH eq_refl (n - 1)). lia.
Qed.

(** Taking from an endless (or long enough) iterator. *)
Lemma Run_itake_steps : forall A (it it' : iter A) l, Steps it l it' ->
  Run (itake (zlen l) it) l End.
Proof.
  intros A it it' l H. induction H as [it|it it1 it' a l Hn HS IH].
  - eapply Run_end. unfold itake. rewrite next_mk. reflexivity.
  - unfold next in Hn.
    destruct (istep it (icur it)) as [[o s]| |] eqn:Hs; try discriminate. injection Hn as -> <-.
    pose proof (zlen_nonneg _ l). rewrite zlen_cons.
    eapply Run_cons.
    + unfold itake. rewrite next_mk. replace (1 + zlen l <=? 0) with false by lia. rewrite Hs. reflexivity.
    + replace (1 + zlen l - 1) with (zlen l) by lia. exact IH.
Qed.

Lemma Run_Steps : forall A (it it' : iter A) l, Steps it l it' -> forall l' e, Run it' l' e ->
  Run it (l ++ l') e.
Proof.
  intros A it it' l H. induction H as [it|it it1 it' a l Hn HS IH]; intros l' e HR; [exact HR|].
  cbn [app]. eapply Run_cons; eauto.
Qed.

Lemma Run_split : forall A l1 l2 (it : iter A) e, Run it (l1 ++ l2) e ->
  exists it', Steps it l1 it' /\ Run it' l2 e.
Proof.
  intros A l1 l2. induction l1 as [|a l1 IH]; intros it e H.
  - exists it. split; [constructor|exact H].
  - cbn [app] in H. inversion H as [x x' Hx|x Hx|x x' a' l'' e'' Hx HR']; subst.
    apply IH in HR'. destruct HR' as (it' & HS & HR). exists it'. split; [econstructor; eauto|exact HR].
Qed.

Lemma Run_ichain_once_second : forall A (it : iter A) x,
  Run (MkIter (option (ist it) * bool) (None, false) (istep (ichain_once it x))) [] End.
Proof. intros. eapply Run_end. rewrite next_mk. reflexivity. Qed.

Lemma Run_ichain_once : forall A (it : iter A) x l, Run it l End ->
  Run (ichain_once it x) (l ++ [x]) End.
Proof.
  intros A it x l H. remember End as e eqn:Ee.
  induction H as [it it' Hn|it Hn|it it' a l e Hn HR IH]; try discriminate; unfold next in Hn;
    destruct (istep it (icur it)) as [[o s]| |] eqn:Hs; try discriminate; injection Hn as -> <-.
  - cbn [app]. eapply Run_cons.
    + unfold ichain_once. rewrite next_mk. rewrite Hs. reflexivity.
    + apply Run_ichain_once_second.
  - cbn [app]. eapply Run_cons.
    + unfold ichain_once. rewrite next_mk. rewrite Hs. reflexivity.
    + exact (IH Ee).
Qed.

(** Concrete ranges of the integer types. *)
Lemma min_U8 : min_of U8 = 0. Proof. reflexivity. Qed.
Lemma min_U16 : min_of U16 = 0. Proof. reflexivity. Qed.
Lemma min_U32 : min_of U32 = 0. Proof. reflexivity. Qed.
Lemma min_U64 : min_of U64 = 0. Proof. reflexivity. Qed.
Lemma min_I8 : min_of I8 = -128. Proof. reflexivity. Qed.
Lemma min_I16 : min_of I16 = -32768. Proof. reflexivity. Qed.
Lemma min_I32 : min_of I32 = -2147483648. Proof. reflexivity. Qed.
Lemma min_I64 : min_of I64 = -9223372036854775808. Proof. reflexivity. Qed.
Lemma max_U8 : max_of U8 = 255. Proof. reflexivity. Qed.
Lemma max_U16 : max_of U16 = 65535. Proof. reflexivity. Qed.
Lemma max_U32 : max_of U32 = 4294967295. Proof. reflexivity. Qed.
Lemma max_U64 : max_of U64 = 18446744073709551615. Proof. reflexivity. Qed.
Lemma max_I8 : max_of I8 = 127. Proof. reflexivity. Qed.
Lemma max_I16 : max_of I16 = 32767. Proof. reflexivity. Qed.
Lemma max_I32 : max_of I32 = 2147483647. Proof. reflexivity. Qed.
Lemma max_I64 : max_of I64 = 9223372036854775807. Proof. reflexivity. Qed.
#[export] Hint Rewrite min_U8 min_U16 min_U32 min_U64 min_I8 min_I16 min_I32 min_I64
  max_U8 max_U16 max_U32 max_U64 max_I8 max_I16 max_I32 max_I64 : mm.
Ltac mlia := autorewrite with mm in *; lia.
