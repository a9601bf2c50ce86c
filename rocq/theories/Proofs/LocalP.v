(** Section tables of files that differ only in packed data. *)
From Coq Require Import Lia ZifyBool ZifyNat.
From Verif Require Import Model.Base Model.Helpers Model.Errors Model.Sections Model.Reader.
From Verif Require Import Spec.ReaderS Spec.LocalS.
From Verif Require Import Proofs.BaseLemmas Proofs.ReaderP Proofs.SectionStreamP Proofs.TableP Proofs.ExactP Proofs.ReaderX.
Ltac Zify.zify_post_hook ::= Z.div_mod_to_equations.

Lemma octets_ext d d' a b : 0 <= a -> (forall i, a <= i < b -> octets d' i 1 = octets d i 1) ->
  forall n, 0 <= n -> forall j, a <= j -> j + n <= b -> octets d' j n = octets d j n.
Proof.
  intros Ha H. apply (natlike_ind (fun n => forall j, a <= j -> j + n <= b -> octets d' j n = octets d j n)).
  - intros j _ _. rewrite !octets_0. reflexivity.
  - intros n Hn IH j Hj Hb. unfold Z.succ. rewrite <- !(octets_app _ j n 1) by lia. rewrite IH, H by lia. reflexivity.
Qed.
Lemma body_at_det d off size num b b' : body_at d off size num b -> body_at d off size num b' -> b = b'.
Proof.
  intros (_ & A) (_ & B). cbv zeta in *.
  destruct A as [(N & -> & _)|[(N & -> & _)|[(N & -> & _)|[(N & -> & _)|[(N & -> & _)|[(N & -> & _)|(N & ->)]]]]]];
  destruct B as [(M & -> & _)|[(M & -> & _)|[(M & -> & _)|[(M & -> & _)|[(M & -> & _)|[(M & -> & _)|(M & ->)]]]]]]; congruence.
Qed.
Lemma tile_det P d e c x e1 c1 y e2 c2 : tile P d e c x e1 c1 -> tile P d e c y e2 c2 -> x = y /\ e1 = e2 /\ c1 = c2.
Proof.
  intros T U. inversion T; subst; inversion U; subst; try lia.
  - same_magic. auto.
  - auto.
  - match goal with A : body_at _ _ _ _ ?b, B : body_at _ _ _ _ ?b' |- _ => rewrite (body_at_det _ _ _ _ _ _ A B) end. auto.
Qed.

(** Two tables: one is the beginning of the other *)
Lemma fork P d : forall l0 e c e0 c0 l1 e1 c1, tiles P d e c l0 e0 c0 -> tiles P d e c l1 e1 c1 ->
  forall s, In s l1 -> In s l0 \/ exists r, tiles P d e0 c0 r e1 c1 /\ In s r.
Proof.
  induction l0 as [|x l0 IH]; intros e c e0 c0 l1 e1 c1 T U s Hs.
  - inversion T; subst. right. eauto.
  - destruct l1 as [|y l1]; [contradiction|]. apply tiles_inv in T. destruct T as (e' & c' & T1 & T2). apply tiles_inv in U. destruct U as (e'' & c'' & U1 & U2).
    destruct (tile_det _ _ _ _ _ _ _ _ _ _ T1 U1) as (-> & -> & ->). destruct Hs as [->|Hs]; [left; left; reflexivity|].
    destruct (IH _ _ _ _ _ _ _ T2 U2 s Hs) as [H|H]; [left; right; exact H|right; exact H].
Qed.
(** Where the sections of a table are *)
Lemma grows P d : forall l e c e' c', 0 <= c -> tiles P d e c l e' c' -> c <= c'.
Proof.
  induction l as [|y l IH]; intros e c e' c' H T; [inversion T; subst; lia|].
  apply tiles_inv in T. destruct T as (e2 & c2 & A & B). pose proof (tile_cur _ _ _ _ _ _ _ H A) as (E & F & _ & _ & Z1 & _).
  assert (H2 : 0 <= c2) by lia. specialize (IH _ _ _ _ H2 B). lia.
Qed.
Lemma spans P d : forall l e c e' c', 0 <= c -> tiles P d e c l e' c' -> forall s, In s l -> c <= s_offset s /\ s_offset s + s_size s <= c'.
Proof.
  induction l as [|x l IH]; intros e c e' c' Hc T s Hs; [contradiction|]. apply tiles_inv in T. destruct T as (e1 & c1 & T1 & T2).
  pose proof (tile_cur _ _ _ _ _ _ _ Hc T1) as (E & F & _ & _ & Z0 & _).
  assert (H1 : 0 <= c1) by lia. pose proof (grows P d _ _ _ _ _ H1 T2) as M.
  destruct Hs as [->|Hs]; [lia|]. destruct (IH _ _ _ _ H1 T2 s Hs). lia.
Qed.

Section Two.
  Variables (P : Prop) (d d' : list byte) (p : Z).
  Hypothesis Hp : 0 <= p.
  Hypothesis R : repacked P d d' p.
  Lemma same_length : zlen d' = zlen d. Proof. exact (proj1 R). Qed.
  Lemma unpacked i : 0 <= i -> ~ packed P d p i -> octets d' i 1 = octets d i 1.
  Proof. intros H N. destruct (list_eq_dec Byte.byte_eq_dec (octets d' i 1) (octets d i 1)) as [E|E]; [exact E|]. destruct (N (proj2 R i H E)). Qed.

  Section At.
    Variables (l0 : list section) (e0 c0 : Z).
    Hypothesis T0 : tiles P d p p l0 e0 c0.
    Lemma c0_nonneg : 0 <= c0. Proof. eapply tiles_nonneg; [exact Hp|exact T0]. Qed.
    (** From here on: packed octets are in sections 7 that follow. *)
    Lemma later i : packed P d p i -> c0 <= i -> exists r e c s, tiles P d e0 c0 r e c /\ In s r /\ s_num s = 7 /\ s_offset s + 5 <= i < s_offset s + s_size s.
    Proof.
      intros (l & e & c & s & T & Hs & N & B) Hi. destruct (fork P d _ _ _ _ _ _ _ _ T0 T s Hs) as [H|(r & Tr & H)].
      - pose proof (spans P d _ _ _ _ _ Hp T0 s H). lia.
      - exists r, e, c, s. auto.
    Qed.
    Lemma nothing_later : (forall x e1 c1, ~ tile P d e0 c0 x e1 c1) -> forall n, 0 <= n -> forall j, c0 <= j -> octets d' j n = octets d j n.
    Proof.
      intros N n Hn j Hj. pose proof c0_nonneg as Hc. apply (octets_ext d d' c0 (j + n)); try lia. intros i Hi. apply unpacked; [lia|].
      intros H. destruct (later i H ltac:(lia)) as (r & e & c & s & T & Hs & _). destruct r as [|x r]; [contradiction|].
      apply tiles_inv in T. destruct T as (e1 & c1 & T1 & _). exact (N _ _ _ T1).
    Qed.
    Lemma before_next x e1 c1 i : tile P d e0 c0 x e1 c1 -> c0 <= i < c1 -> s_num x = 7 -> i < c0 + 5 -> octets d' i 1 = octets d i 1.
    Proof.
      intros T1 Hi N7 H5. pose proof c0_nonneg as Hc. apply unpacked; [lia|]. intros H. destruct (later i H ltac:(lia)) as (r & e & c & s & T & Hs & _ & B).
      pose proof (spans P d _ _ _ _ _ Hc T s Hs). lia.
    Qed.
    Lemma header_same i : c0 <= i < c0 + 5 -> octets d' i 1 = octets d i 1.
    Proof.
      intros Hi. pose proof c0_nonneg as Hc. apply unpacked; [lia|]. intros H. destruct (later i H ltac:(lia)) as (r & e & c & s & T & Hs & _ & B).
      pose proof (spans P d _ _ _ _ _ Hc T s Hs). lia.
    Qed.
    Lemma other_same x e1 c1 i : tile P d e0 c0 x e1 c1 -> s_num x <> 7 -> c0 <= i < c1 -> octets d' i 1 = octets d i 1.
    Proof.
      intros T1 N7 Hi. pose proof c0_nonneg as Hc. pose proof (tile_cur _ _ _ _ _ _ _ Hc T1) as (E & F & _ & _ & Z0 & _).
      apply unpacked; [lia|]. intros H. destruct (later i H ltac:(lia)) as (r & e & c & s & T & Hs & N & B).
      destruct r as [|y r]; [contradiction|]. apply tiles_inv in T. destruct T as (e2 & c2 & T2 & T3). destruct (tile_det _ _ _ _ _ _ _ _ _ _ T1 T2) as (<- & <- & <-).
      destruct Hs as [->|Hs]; [contradiction|]. assert (H1 : 0 <= c1) by lia. pose proof (spans P d _ _ _ _ _ H1 T3 s Hs). lia.
    Qed.

    Lemma magic_same a b j : c0 <= a -> (forall i, a <= i < b -> octets d' i 1 = octets d i 1) -> a <= j -> j + 4 <= b -> magic_at d' j <-> magic_at d j.
    Proof.
      intros Ha H Hj Hb. pose proof c0_nonneg as Hc. unfold magic_at. rewrite same_length, (octets_ext d d' a b ltac:(lia) H 4 ltac:(lia) j) by lia. reflexivity.
    Qed.
    Lemma tile_same x e1 c1 : tile P d e0 c0 x e1 c1 -> tile P d' e0 c0 x e1 c1.
    Proof.
      intros T1. pose proof c0_nonneg as Hc. pose proof same_length as L. pose proof (other_same x e1 c1) as OS. specialize (fun i => OS i T1). pose proof header_same as HS. pose proof magic_same as MS.
      inversion T1; subst; cbn [s_num] in OS.
      - specialize (fun i => OS i ltac:(discriminate)). pose proof (octets_ext d d' c0 (k + 16) ltac:(lia) OS) as O.
        match goal with H : first_magic _ _ _ |- _ => destruct H as (K1 & K2 & K3) end.
        rewrite <- (O 1 ltac:(lia) (k + 6)), <- (O 8 ltac:(lia) (k + 8)) by lia. apply tile_0; try reflexivity.
        + split; [exact K1|]. split; [apply (MS c0 (k + 16)); [lia|exact OS|lia|lia|exact K2]|]. intros j Hj M. apply (K3 j Hj). apply (MS c0 (k + 16)); [lia|exact OS|lia|lia|exact M].
        + rewrite O by lia. assumption.
        + rewrite (O 8 ltac:(lia)) by lia. assumption.
      - specialize (fun i => OS i ltac:(discriminate)). pose proof (octets_ext d d' c0 (c0 + 4) ltac:(lia) OS) as O. apply tile_8; [lia|]. rewrite O by lia. assumption.
      - pose proof (octets_ext d d' c0 (c0 + 5) ltac:(lia) HS) as O.
        rewrite <- (O 4 ltac:(lia) c0), <- (O 1 ltac:(lia) (c0 + 4)) by lia. apply tile_n; try assumption; try reflexivity.
        + lia.
        + rewrite !O by lia. match goal with H : body_at _ _ _ _ _ |- _ => destruct H as (B1 & B2) end. split; [lia|]. cbv zeta in *.
          set (size := be (octets d c0 4)) in *. set (num := be (octets d (c0 + 4) 1)) in *.
          assert (X : num <> 7 -> 5 <= size -> forall n, 0 <= n -> n <= size - 5 -> octets d' (c0 + 5) n = octets d (c0 + 5) n).
          { intros N7 S5 n Hn Hs. specialize (fun i => OS i N7). apply (octets_ext d d' c0 (c0 + size) ltac:(lia) OS n Hn); lia. }
          destruct B2 as [(N & -> & Q)|[(N & -> & Q)|[(N & -> & Q)|[(N & -> & Q)|[(N & -> & Q)|[(N & -> & Q)|(N & ->)]]]]]]; try rewrite !X by lia; tauto.
        + rewrite (O 4 ltac:(lia)) by lia. assumption.
    Qed.
    Hypothesis stuck : forall x e1 c1, ~ tile P d e0 c0 x e1 c1.
    Lemma magic_all j : c0 <= j -> magic_at d' j <-> magic_at d j.
    Proof. intros H. apply (magic_same c0 (j + 4)); try lia. intros i Hi. apply nothing_later; [exact stuck|lia|lia]. Qed.
    Lemma first_same k : first_magic d c0 k -> first_magic d' c0 k.
    Proof. intros (A & B & C). split; [exact A|]. split; [apply magic_all; assumption|]. intros j Hj M. apply (C j Hj). apply magic_all; [lia|exact M]. Qed.
    Lemma octets_same n j : 0 <= n -> c0 <= j -> octets d' j n = octets d j n.
    Proof. intros Hn Hj. apply nothing_later; [exact stuck|exact Hn|exact Hj]. Qed.
    Lemma ends_same : ends d e0 c0 -> ends d' e0 c0.
    Proof.
      pose proof same_length as L. intros [E N|E N]; [apply ends_between|apply ends_inside]; try assumption; try lia. intros j Hj M. apply (N j Hj). apply magic_all; assumption.
    Qed.
    Lemma body_same size num b : body_at d c0 size num b -> body_at d' c0 size num b.
    Proof. intros (A & B). split; [rewrite same_length; exact A|]. cbv zeta in *. destruct (Z.le_gt_cases 5 size).
      - rewrite !octets_same by lia. exact B.
      - destruct B as [(N & -> & Q)|[(N & -> & Q)|[(N & -> & Q)|[(N & -> & Q)|[(N & -> & Q)|[(N & -> & Q)|(N & ->)]]]]]]; try lia. tauto.
    Qed.
    Lemma fails_same e : fails P d e0 c0 e -> fails P d' e0 c0 e.
    Proof.
      pose proof same_length as L. pose proof first_same as FS. pose proof octets_same as OS. pose proof body_same as BS. intros F; inversion F; subst; rewrite <- ?L in *.
      - pose proof H0 as (K1 & _). eapply fails_version; [reflexivity|apply FS; exact H0| |rewrite ?OS by lia; assumption]. rewrite OS by lia. reflexivity.
      - apply fails_end_cut; auto.
      - apply fails_end; auto. rewrite OS by lia. assumption.
      - apply fails_header_cut; auto.
      - eapply fails_number; eauto; rewrite !OS by lia; auto.
      - eapply fails_cut; eauto; rewrite ?OS by lia; auto.
      - rewrite <- (OS 4 c0) in * by lia. eapply fails_short; eauto; rewrite ?OS in * by lia; auto.
      - eapply fails_bitmap_cut; eauto; rewrite ?OS by lia; auto.
    Qed.
    Lemma crashes_same : crashes P d e0 c0 -> crashes P d' e0 c0.
    Proof.
      pose proof same_length as L. pose proof first_same as FS. pose proof octets_same as OS. pose proof body_same as BS. intros F; inversion F; subst; rewrite <- ?L in *.
      - match goal with H : first_magic _ _ _ |- _ => pose proof H as (K1 & _); apply FS in H end. eapply crash_total; eauto; rewrite ?OS by lia; auto.
      - eapply crash_size; eauto; rewrite ?OS by lia; auto.
      - eapply crash_bitmap; eauto; rewrite ?OS by lia; auto.
      - eapply crash_overrun; eauto; rewrite ?OS by lia; auto. match goal with H : body_at _ _ _ _ _ |- _ => apply BS in H; exact H end.
    Qed.
  End At.

  Lemma tiles_snoc d0 : forall l e c e1 c1 x e2 c2, tiles P d0 e c l e1 c1 -> tile P d0 e1 c1 x e2 c2 -> tiles P d0 e c (l ++ [x]) e2 c2.
  Proof.
    induction l as [|y l IH]; intros e c e1 c1 x e2 c2 T U; cbn [app].
    - inversion T; subst. eapply tiles_cons; [exact U|constructor].
    - apply tiles_inv in T. destruct T as (e3 & c3 & A & B). eapply tiles_cons; [exact A|]. eapply IH; eassumption.
  Qed.
  Lemma tiles_same_from : forall l l0 e0 c0 e c, tiles P d p p l0 e0 c0 -> tiles P d e0 c0 l e c -> tiles P d' e0 c0 l e c.
  Proof.
    induction l as [|x l IH]; intros l0 e0 c0 e c T0 T; [inversion T; subst; constructor|].
    apply tiles_inv in T. destruct T as (e1 & c1 & A & B). eapply tiles_cons; [eapply tile_same; eassumption|].
    eapply IH; [|exact B]. eapply tiles_snoc; eassumption.
  Qed.
  Lemma tiles_same l e c : tiles P d p p l e c -> tiles P d' p p l e c.
  Proof. intros T. eapply tiles_same_from; [constructor|exact T]. Qed.
End Two.
