(** The statements of the property theorems C23-C26, C29. *)
From Coq Require Import Lia ZifyBool ZifyNat.
From Verif Require Import Model.Base Model.Errors Model.Sections Model.Parser.
From Verif Require Import Spec.ParserS Proofs.BaseLemmas Proofs.ParserP Proofs.ParserRun Proofs.ParserShape Proofs.ParserSim Proofs.ParserSrc Proofs.FileP.

Lemma value_iff : forall it l, Run it l End ->
  (exists us, Run (submessage_stream it) (map Ok us) End) <->
  (exists ms, Forall wf_message ms /\ l = map Ok (flat_map message_sections ms)).
Proof. intros [S s step] l HR. exact (stream_iff step s l HR). Qed.

Lemma streams_agree : forall it l e, Run (submessage_stream it) l e ->
  exists l', Run (submessage_index_stream it) l' e /\ Forall2 (same_item it) l l'.
Proof. intros [S s step] l e HR. exact (paired_v step s l _ e HR _ _ eq_refl (joint_between _ _ _)). Qed.

Lemma streams_agree' : forall it l' e, Run (submessage_index_stream it) l' e ->
  exists l, Run (submessage_stream it) l e /\ Forall2 (same_item it) l l'.
Proof. intros [S s step] l e HR. exact (paired_i step s l _ e HR _ _ eq_refl (joint_between _ _ _)). Qed.

Lemma index_iff : forall it l, Run it l End ->
  (exists us, Run (submessage_index_stream it) (map Ok us) End) <->
  (exists ms, Forall wf_message ms /\ l = map Ok (flat_map message_sections ms)).
Proof.
  intros it l HR. rewrite <- (value_iff it l HR). split; intros (us & H).
  - destruct (streams_agree' it _ _ H) as (l' & H' & F). destruct (Forall2_Ok _ _ _ F) as (vs & -> & _). eauto.
  - destruct (streams_agree it _ _ H) as (l' & H' & F). destruct (Forall2_Ok' _ _ _ F) as (vs & -> & _). eauto.
Qed.

Lemma value_wf : forall it ms, Run it (map Ok (flat_map message_sections ms)) End -> Forall wf_message ms ->
  exists us, Run (submessage_stream it) (map Ok us) End /\ submessages_of_all 0 ms us.
Proof. intros [S s step] ms HR Hw. exact (stream_wf step s ms _ HR Hw eq_refl). Qed.

Lemma value_broken : forall it ms pre rest, Run it (map Ok (flat_map message_sections ms ++ pre) ++ rest) End ->
  Forall wf_message ms -> viable pre -> broken pre rest ->
  exists us us' e it',
    submessages_of_all 0 ms us /\ partial_submessages (zlen ms) pre rest us' /\
    order_error pre (zlen (flat_map message_sections ms ++ pre)) rest e /\
    Steps (submessage_stream it) (map Ok us ++ map Ok us' ++ [Err e]) it' /\
    forall n, only_none n it'.
Proof. intros [S s step] ms pre rest HR Hw Hv Hb. exact (stream_broken step s ms pre rest _ HR Hw Hv Hb eq_refl). Qed.

Lemma exhaustive : forall l : list item,
  (exists ms, Forall wf_message ms /\ l = map Ok (flat_map message_sections ms)) \/
  (exists ms pre rest, Forall wf_message ms /\ viable pre /\ broken pre rest /\
     l = map Ok (flat_map message_sections ms ++ pre) ++ rest).
Proof.
  intros l. destruct (wf_or_broken l [] viable_nil) as [(ms & Hw & E)|(ms & pre & rest & Hw & Hv & Hb & E)]; cbn [map app] in E.
  - left. eauto.
  - right. exists ms, pre, rest. auto.
Qed.

Lemma in_submessages : forall ms i us u, submessages_of_all i ms us -> In u us ->
  exists k m n, nth_error ms k = Some m /\ u_mi u = i + Z.of_nat k /\ u_si u = Z.of_nat n /\
    is_submessage (i + Z.of_nat k) (ms0 m) (ms1 m) (groups m) (ms8 m) n u.
Proof.
  intros ms i us u H. induction H as [i|i m ms us us' Hu Ha IH]; intros HI; [destruct HI|].
  apply in_app_or in HI. destruct HI as [HI|HI].
  - apply In_nth_error in HI. destruct HI as (n & Hn). destruct Hu as [_ Hu]. specialize (Hu n u Hn).
    exists O, m, n. split; [reflexivity|]. replace (i + Z.of_nat 0) with i by lia. destruct Hu as (A & B & C). 
    split; [exact A|]. split; [exact B|]. split; [exact A|]. split; [exact B|exact C].
  - destruct (IH HI) as (k & m' & n & A & B & C & D). exists (S k), m', n. split; [exact A|].
    replace (i + Z.of_nat (S k)) with (i + 1 + Z.of_nat k) by lia. auto.
Qed.

(** The end section an index submessage refers to. *)
Lemma index_end : forall it ms, Run it (map Ok (flat_map message_sections ms)) End -> Forall wf_message ms ->
  (forall p, ~ points it no_end_section p) ->
  exists ws, Run (submessage_index_stream it) (map Ok ws) End /\
  forall w, In w ws -> exists m, nth_error ms (Z.to_nat (u_mi w)) = Some m /\
    if u_si w + 1 =? zlen (groups m) then points it (ms8 m) (u_8 w) else u_8 w = 0.
Proof.
  intros it ms HR Hw Hno. destruct (value_wf it ms HR Hw) as (us & HU & HS).
  destruct (streams_agree it _ _ HU) as (l' & HI & F). destruct (Forall2_Ok' _ _ _ F) as (ws & -> & F').
  exists ws. split; [exact HI|]. intros w Hin.
  assert (G : exists u, In u us /\ same_submessage it u w).
  { clear - F' Hin. induction F' as [|u w' us ws Hx HF IH]; [destruct Hin|]. destruct Hin as [->|Hin].
    - exists u. split; [left; reflexivity|exact Hx].
    - destruct (IH Hin) as (u' & A & B). exists u'. split; [right; exact A|exact B]. }
  destruct G as (u & Hu & Hs). destruct (in_submessages ms 0 us u HS Hu) as (k & m & n & Hk & Hi & Hn & Hsub).
  destruct Hs as (S1 & S2 & _ & _ & _ & _ & _ & _ & _ & _ & S8).
  exists m. rewrite S1, Hi, Z.add_0_l, Nat2Z.id. split; [exact Hk|]. rewrite S2, Hn.
  destruct Hsub as (_ & _ & _ & _ & _ & _ & _ & H8).
  destruct (Nat.eqb_spec (S n) (length (groups m))) as [E|E].
  - replace (Z.of_nat n + 1 =? zlen (groups m)) with true by (unfold zlen; lia). rewrite H8 in S8.
    destruct S8 as [S8|(S8 & S8')]; [exact S8|].
    exfalso. assert (Hm : In m ms) by (eapply nth_error_In; exact Hk).
    apply in_split in Hm. destruct Hm as (m1 & m2 & ->).
    assert (Hin8 : In (Ok no_end_section : item) (map Ok (flat_map message_sections (m1 ++ m :: m2)))).
    { apply in_map. rewrite flat_map_app. apply in_or_app. right. cbn [flat_map]. apply in_or_app. left.
      unfold message_sections. right. right. apply in_or_app. right. left. exact S8. }
    apply In_nth_error in Hin8. destruct Hin8 as (q & Hq).
    apply (Hno (Z.of_nat q)). split; [lia|]. rewrite <- (app_nil_r (map Ok _)) in HR. apply Run_split in HR. destruct HR as (it' & HSt & _).
    eexists _, it'. split; [exact HSt|]. rewrite Nat2Z.id. exact Hq.
  - replace (Z.of_nat n + 1 =? zlen (groups m)) with false by (unfold zlen; lia).
    destruct S8 as [S8|(_ & S8)]; [|exact S8]. rewrite H8 in S8. exfalso. exact (Hno _ S8).
Qed.
