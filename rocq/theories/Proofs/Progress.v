(** Reading always moves forward, hence terminates. *)
From Coq Require Import Lia ZifyBool ZifyNat.
From Verif Require Import Model.Base Model.Helpers Model.Errors Model.Sections Model.Reader Model.Parser Model.Context.
From Verif Require Import Spec.ReaderS Proofs.BaseLemmas Proofs.ReaderP Proofs.SectionStreamP.
Ltac Zify.zify_post_hook ::= Z.div_mod_to_equations.

Definition left_of (s : sstate) : Z := Z.max 0 (zlen (data (st_src s)) - pos (st_src s)).
Definition okst (s : sstate) : Prop := zlen (data (st_src s)) < 2 ^ 63 /\ 0 <= pos (st_src s).

Lemma first_magic_room : forall d p k, first_magic d p k -> p <= k /\ k + 16 <= zlen d.
Proof. intros d p k (A & (B & C & _) & _). lia. Qed.

Lemma arith_cases : forall m t z, arith m t z = Panic \/ exists r, arith m t z = Ret r.
Proof. intros m t z. unfold arith. destruct (in_range t z); [right; eauto|]. destruct m; eauto. Qed.

Ltac ar := match goal with |- context [arith ?m ?t ?z] =>
  let r := fresh "r" in destruct (arith_cases m t z) as [->|(r & ->)]; cbn [bind]; [exact I|] end.

(** In any state, every item moves the position forward, inside the data; except the
    section 7 of length 0 without overflow checks. *)
Lemma next_section_progress : forall m s, okst s ->
  match next_section m s with
  | Diverge => False
  | Panic => True
  | Ret (None, s') => okst s' /\ data (st_src s') = data (st_src s) /\ left_of s' <= left_of s
  | Ret (Some x, s') => okst s' /\ data (st_src s') = data (st_src s) /\ 0 < left_of s /\
      (left_of s' < left_of s \/
       (m = Wrapping /\ left_of s' <= left_of s /\ exists y, x = Ok y /\ s_num y = 7))
  end.
Proof.
  intros m s [Hl Hp]. unfold okst, left_of. unfold next_section.
  destruct (rest s =? 0).
  { unfold next_sect0. destruct (read_sect0_spec (st_src s) Hp Hl) as (r & s' & -> & Hd & _ & HP). cbn [bind].
    unfold read_sect0_post in HP. destruct r as [[[off b]|]|e].
    - destruct HP as (F & _ & _ & Ep). apply first_magic_room in F.
      ar. ar. ar. cbn [st_src]. rewrite Hd. repeat split; lia.
    - cbn [st_src]. rewrite Hd. repeat split; lia.
    - destruct e; try contradiction. destruct HP as (k & F & _ & _ & Ep). apply first_magic_room in F.
      cbn [st_src]. rewrite Hd. repeat split; lia. }
  destruct (rest s =? 4).
  { unfold next_sect8. destruct (read_sect8_spec (st_src s) Hp) as (r & s' & -> & Hd & _ & HP). cbn [bind].
    destruct r as [[u|]|e].
    - ar. ar. cbn [st_src]. rewrite Hd. repeat split; lia.
    - cbn [st_src]. rewrite Hd. repeat split; lia.
    - cbn [st_src]. rewrite Hd. repeat split; lia. }
  unfold next_sect. destruct (read_sect_header_spec (st_src s) Hp) as (r & s' & -> & Hd & _ & HP). cbn [bind].
  destruct r as [[h|]|e].
  - destruct HP as (-> & H5 & Ep). ar.
    pose proof (octets_be_range (data (st_src s)) (pos (st_src s)) 4 ltac:(lia)) as R4. change (256 ^ 4) with (2 ^ 32) in R4.
    pose proof (octet_range (data (st_src s)) (pos (st_src s) + 4)) as R1.
    set (size := be (octets (data (st_src s)) (pos (st_src s)) 4)) in *.
    set (num := be (octets (data (st_src s)) (pos (st_src s) + 4) 1)) in *.
    pose proof (read_sect_payload_spec m size num s' (pos (st_src s)) Hp Ep ltac:(rewrite Hd; lia) ltac:(rewrite Hd; lia) R4 R1) as PP.
    destruct (read_sect_payload m (size, num) s') as [[[b|e] s'']| |]; cbn [bind]; try exact I; [| |contradiction].
    + destruct PP as (Hd2 & _ & Hb & Ep2 & Hck). ar. cbn [st_src]. rewrite Hd2, Hd.
      split; [lia|]. split; [reflexivity|]. split; [lia|].
      destruct (Z.eq_dec size 0) as [Hz|Hz]; [|left; lia].
      right. destruct m; [specialize (Hck eq_refl); lia|]. split; [reflexivity|]. split; [lia|].
      eexists. split; [reflexivity|]. cbn [s_num]. destruct Hb as (_ & Hb). intuition lia.
    + destruct PP as (Hd2 & Hp2 & _). cbn [st_src]. rewrite Hd2, Hd. repeat split; lia.
  - cbn [st_src]. rewrite Hd. repeat split; lia.
  - cbn [st_src]. rewrite Hd. repeat split; lia.
Qed.

(** ** the section stream, with overflow checks *)
Lemma section_stream_ends : forall n s, okst s -> left_of s <= Z.of_nat n ->
  exists l e, Run (MkIter sstate s (next_section Checked)) l e /\ zlen l <= left_of s.
Proof.
  induction n as [|n IH]; intros s Ho Hn.
  all: pose proof (next_section_progress Checked s Ho) as P; pose proof (Z.le_max_l 0 (zlen (data (st_src s)) - pos (st_src s))) as M.
  all: destruct (next_section Checked s) as [[[x|] s']| |] eqn:E; [| | |contradiction].
  - destruct P as (_ & _ & P & _). lia.
  - exists [], End. split; [eapply Run_end; rewrite next_mk, E; reflexivity|rewrite zlen_nil; exact M].
  - exists [], Crash. split; [eapply Run_crash; rewrite next_mk, E; reflexivity|rewrite zlen_nil; exact M].
  - destruct P as (Ho' & _ & P & [P'|(F & _)]); [|discriminate].
    destruct (IH s' Ho' ltac:(lia)) as (l & e & HR & HL). exists (x :: l), e.
    split; [|rewrite zlen_cons; lia]. econstructor; [rewrite next_mk, E; reflexivity|exact HR].
  - exists [], End. split; [eapply Run_end; rewrite next_mk, E; reflexivity|rewrite zlen_nil; exact M].
  - exists [], Crash. split; [eapply Run_crash; rewrite next_mk, E; reflexivity|rewrite zlen_nil; exact M].
Qed.
