(** A message taken out of a file. *)
From Coq Require Import Lia ZifyBool ZifyNat.
From Verif Require Import Model.Base Model.Helpers Model.Errors Model.Sections Model.Reader Model.Parser Model.Context Model.Decoder.
From Verif Require Import Spec.ReaderS Spec.ParserS Spec.ReadS Spec.SessionS Spec.LocalS Spec.CutS Spec.JoinS.
From Verif Require Import Proofs.BaseLemmas Proofs.ReaderP Proofs.SectionStreamP Proofs.TableP Proofs.ExactP Proofs.ReaderX Proofs.LocalP Proofs.CutP Proofs.CutM Proofs.CutX Proofs.JoinX Proofs.JoinY Proofs.JoinR Proofs.JoinQ.
From Verif Require Proofs.ReadX Proofs.FileP Proofs.WordX Proofs.CutF Proofs.JoinF.
Ltac Zify.zify_post_hook ::= Z.div_mod_to_equations.

Section Back.
  Variables (a d : list byte).
  Let k := zlen a.
  Lemma first_back p j : 0 <= p -> first_magic (a ++ d) (p + k) (j + k) -> first_magic d p j.
  Proof.
    intros H (A & B & C). unfold k in *. split; [lia|]. split; [apply (magic_moved a d); [lia|exact B]|].
    intros i Hi M. apply (C (i + zlen a)); [lia|]. apply magic_moved; [lia|exact M].
  Qed.
  Lemma body_back off size num b : 0 <= off -> body_at (a ++ d) (off + k) size num b -> body_at d off size num b.
  Proof.
    intros H0 (A & B). unfold k in *. pose proof (zlen_both a d) as ZB. split; [intros N; specialize (A N); lia|]. cbv zeta in *. replace (off + zlen a + 5) with (off + 5 + zlen a) in B by lia. rewrite !octets_moved in B by lia. exact B.
  Qed.
  Definition back (x : section) : section := MkSection (s_num x) (s_offset x - k) (s_size x) (s_body x).
  Lemma moved_back x : moved k (back x) = x.
  Proof. destruct x as [q1 q2 q3 q4]. unfold moved, back. cbn [s_num s_offset s_size s_body]. f_equal. lia. Qed.
  Lemma tile_back P e c x e1 c1 : 0 <= c -> tile P (a ++ d) (e + k) (c + k) x (e1 + k) (c1 + k) -> tile P d e c (back x) e1 c1.
  Proof.
    intros H0 T. pose proof (k_nonneg a) as K0. pose proof (zlen_both a d) as ZB. unfold back, k in *. remember (e + zlen a) as E. remember (c + zlen a) as C. remember (e1 + zlen a) as E1. remember (c1 + zlen a) as C1.
    inversion T; clear T; cbn [s_num s_offset s_size s_body].
    - rename k0 into q, H into F, H1 into V, H4 into SS, H6 into Q1, H8 into Q2, H9 into Q3. clear H5 H7. subst discipline total. subst E C E1 C1.
      remember (q - zlen a) as j eqn:Hj. assert (Hq : q = j + zlen a) by lia. clear Hj. subst q.
      assert (E' : e = c) by lia. subst e. pose proof (first_back c j H0 F) as F'. pose proof F' as (F1 & _).
      replace (j + zlen a + 6) with (j + 6 + zlen a) in * by lia. replace (j + zlen a + 7) with (j + 7 + zlen a) in * by lia. replace (j + zlen a + 8) with (j + 8 + zlen a) in * by lia.
      rewrite !octets_moved in * by lia.
      assert (Ee : e1 = j + be (octets d (j + 8) 8)) by lia. assert (Ec : c1 = j + 16) by lia. rewrite Ee, Ec.
      apply tile_0; try reflexivity; try assumption. intros HP. specialize (SS HP). lia.
    - rename H into A, H1 into B, H2 into Q1, H3 into Q2, H5 into Q3, H6 into Q4. clear H4. subst C E E1 C1 cur.
      assert (Ee : e = c + 4) by lia. assert (Ee1 : e1 = c + 4) by lia. assert (Ec1 : c1 = c + 4) by lia. subst e e1 c1.
      replace (c + zlen a - zlen a) with c by lia. apply tile_8; [lia|]. rewrite octets_moved in B by lia. exact B.
    - rename H into A1, H1 into A2, H2 into A3, H3 into A4, H4 into A5, H5 into A6, H6 into SS. 
      replace (C + 4) with (c + 4 + zlen a) in * by lia. subst size num. subst C. rewrite !octets_moved in * by lia.
      assert (Ee1 : e1 = e) by lia. assert (Ec1 : c1 = c + be (octets d c 4)) by lia. subst e1 c1. replace (c + zlen a - zlen a) with c by lia.
      apply tile_n; try reflexivity; try lia.
      apply body_back; [exact H0|exact A6].
  Qed.
  Lemma tiles_back P : forall l e c e' c', 0 <= c -> tiles P (a ++ d) (e + k) (c + k) l (e' + k) (c' + k) -> tiles P d e c (map back l) e' c'.
  Proof.
    induction l as [|x l IH]; intros e c e' c' H0 T.
    - remember (e + k) as E. remember (c + k) as C. remember (e' + k) as E'. remember (c' + k) as C'. inversion T; subst. assert (e' = e) by lia. assert (c' = c) by lia. subst. constructor.
    - apply tiles_inv in T. destruct T as (e1 & c1 & T1 & T2). pose proof (k_nonneg a) as K0. fold k in K0.
      assert (HC : 0 <= c + k) by lia. pose proof (tile_cur _ _ _ _ _ _ _ HC T1) as (E & B & _ & _ & Z0 & _).
      replace e1 with (e1 - k + k) in T1, T2 by lia. replace c1 with (c1 - k + k) in T1, T2 by lia. cbn [map]. eapply tiles_cons.
      + exact (tile_back P _ _ _ _ _ H0 T1).
      + apply IH; [lia|exact T2].
  Qed.
End Back.

Lemma later_start P D c x e1 c1 : s_num x = 0 -> tile P D c c x e1 c1 -> tile P D (s_offset x) (s_offset x) x e1 c1.
Proof.
  intros N T. inversion T; subst; cbn [s_num s_offset] in *; [|lia|congruence].
  match goal with H : first_magic _ _ _ |- _ => destruct H as (F1 & F2 & F3) end.
  apply tile_0; try reflexivity; try assumption. split; [lia|]. split; [exact F2|]. intros j Hj. lia.
Qed.
Lemma readable d ms c : zlen d < 2 ^ 63 -> Forall wf_message ms -> tiles (Checked = Checked) d 0 0 (flat_map message_sections ms) c c -> (forall j, c <= j -> ~ magic_at d j) ->
  forall m fuel, zlen d < Z.of_nat fuel -> exists g, grib2_read m fuel (MkSrc d 0 []) = Ret (Ok g) /\ g_sections g = flat_map message_sections ms.
Proof.
  intros HL W T N m fuel Hf. assert (Hp : 0 <= 0 <= zlen d) by (pose proof (k_nonneg d); lia).
  apply (FileP.grib2_read_complete m fuel (MkSrc d 0 []) ms); cbn [data pos]; try assumption; [lia|].
  apply (end_iff m d 0 HL Hp). exists c, c. split; [apply (tiles_weaken (Checked = Checked)); [reflexivity|exact T]|apply ends_between; [reflexivity|exact N]].
Qed.
Lemma numbered : forall i ms us, submessages_of_all i ms us -> Forall (fun u => i <= u_mi u < i + zlen ms) us.
Proof.
  induction 1 as [i|i m ms us us' (L & H) _ IH]; [constructor|]. pose proof (zlen_nonneg _ ms) as Z0. apply Forall_app. split.
  - rewrite Forall_forall. intros u Hu. apply In_nth_error in Hu. destruct Hu as (n & Hn). destruct (H n u Hn) as (E & _). rewrite zlen_cons. lia.
  - revert IH. apply Forall_impl. intros u. rewrite zlen_cons. lia.
Qed.
Lemma numbered_indices l us ws P : Forall2 (indexes l) us ws -> Forall (fun u => P (u_mi u)) us -> Forall (fun w => P (u_mi w)) ws.
Proof. induction 1 as [|u w us ws H F IH]; intros Q; [constructor|]. inversion Q; subst. constructor; [|auto]. destruct H as (E & _). rewrite E. assumption. Qed.
