(** How many messages and submessages fit into a file. *)
From Coq Require Import Lia ZifyBool ZifyNat.
From Verif Require Import Model.Base Model.Errors Model.Sections Model.Reader Model.Parser Model.Context Spec.ReaderS Spec.ParserS.
From Verif Require Import Proofs.BaseLemmas Proofs.ReaderP Proofs.SectionStreamP Proofs.TableP Proofs.FileP.
Ltac Zify.zify_post_hook ::= Z.div_mod_to_equations.

Definition weight (n : Z) : Z :=
  match n with 0 => 16 | 1 => 21 | 3 => 14 | 4 => 9 | 5 => 11 | 6 => 6 | 8 => 4 | _ => 0 end.
Definition sum_weights (l : list section) : Z := fold_right (fun x a => weight (s_num x) + a) 0 l.
Lemma sum_app l l' : sum_weights (l ++ l') = sum_weights l + sum_weights l'.
Proof. unfold sum_weights. induction l as [|x l IH]; cbn [fold_right app]; lia. Qed.
Lemma weight_nonneg n : 0 <= weight n.
Proof. unfold weight. destruct n as [|p|p]; [lia| |lia]. do 4 (destruct p as [p|p|]; try lia). Qed.
Lemma sum_nonneg l : 0 <= sum_weights l.
Proof. unfold sum_weights. induction l as [|x l IH]; cbn [fold_right]; [lia|]. pose proof (weight_nonneg (s_num x)). lia. Qed.

Lemma tiles_weights : forall P d l endp cur endp' cur', 0 <= cur -> tiles P d endp cur l endp' cur' ->
  sum_weights l <= Z.max 0 (zlen d - cur).
Proof.
  induction l as [|x l IH]; intros endp cur endp' cur' Hc H; [cbn; lia|].
  apply tiles_inv in H. destruct H as (e1 & c1 & T & H).
  change (sum_weights (x :: l)) with (weight (s_num x) + sum_weights l).
  destruct T as [cur k discipline total F V D E S|cur L O|endp cur size num b N1 N2 L Es En B S].
  - destruct F as (F1 & (F2 & F3 & _) & _). assert (I := fun z => IH _ _ _ _ z H); specialize (I ltac:(lia)). cbn [s_num weight]. lia.
  - assert (I := fun z => IH _ _ _ _ z H); specialize (I ltac:(lia)). cbn [s_num weight]. lia.
  - assert (0 <= size) by (subst size; apply octets_be_range; lia).
    assert (I := fun z => IH _ _ _ _ z H); specialize (I ltac:(lia)). cbn [s_num]. destruct B as (B & C).
    destruct C as [(-> & _ & C)|[(-> & _ & C)|[(-> & _ & C)|[(-> & _ & C)|[(-> & _ & C)|[(-> & _ & C)|(-> & _)]]]]]];
      try (specialize (B ltac:(discriminate))); cbn [weight]; lia.
Qed.

Lemma group_weight g : wf_group g -> 26 + (match gr3 g with Some _ => 14 | None => 0 end) <= sum_weights (group_sections g).
Proof.
  intros (W2 & W3 & _ & W4 & W5 & W6 & W7). unfold group_sections. rewrite !sum_app.
  pose proof (sum_nonneg (opt_list (gr2 g))). destruct (gr3 g) as [s|]; cbn [opt_num opt_list sum_weights fold_right] in *;
    rewrite ?W3, W4, W5, W6, W7; cbn [weight]; lia.
Qed.
Lemma groups_weight gs : Forall wf_group gs -> 26 * zlen gs <= sum_weights (flat_map group_sections gs).
Proof.
  induction 1 as [|g gs W F IH]; [reflexivity|]. cbn [flat_map]. rewrite sum_app, zlen_cons. pose proof (group_weight g W).
  destruct (gr3 g); lia.
Qed.
Lemma message_weight m : wf_message m -> 55 + 26 * zlen (groups m) <= sum_weights (message_sections m).
Proof.
  intros (W0 & W1 & W8 & W & g & gs & E & G). unfold message_sections. cbn [sum_weights fold_right].
  fold (sum_weights (flat_map group_sections (groups m) ++ [ms8 m])). rewrite sum_app, W0, W1. cbn [sum_weights fold_right]. rewrite W8.
  rewrite E in *. inversion W as [|? ? Wg Ws]; subst. cbn [flat_map]. rewrite sum_app, zlen_cons. pose proof (group_weight g Wg).
  pose proof (groups_weight gs Ws). destruct (gr3 g); [|congruence]. cbn [weight]. lia.
Qed.
Lemma messages_weight : forall ms i us, Forall wf_message ms -> submessages_of_all i ms us ->
  55 * zlen ms + 26 * zlen us <= sum_weights (flat_map message_sections ms).
Proof.
  intros ms i us W H. induction H as [|i m ms us us' (L & _) _ IH]; [cbn; lia|].
  inversion W as [|? ? Wm Ws]; subst. cbn [flat_map]. rewrite sum_app, zlen_cons, zlen_app. pose proof (message_weight m Wm). specialize (IH Ws).
  assert (zlen us = zlen (groups m)) by (unfold zlen; lia). lia.
Qed.

Lemma file_bound : forall m fuel s g, grib2_read m fuel s = Ret (Ok g) -> zlen (data s) < 2 ^ 63 -> 0 <= pos s <= zlen (data s) ->
  exists ms us, Forall wf_message ms /\ g_sections g = flat_map message_sections ms /\ submessages_of_all 0 ms us /\ zlen us = g_len g /\
    55 * zlen ms + 26 * g_len g <= zlen (data s) - pos s.
Proof.
  intros m fuel [d p sc] g E Hl Hp. cbn [data pos] in *.
  destruct (grib2_read_inv m fuel _ g E Hl ltac:(cbn [pos]; lia)) as (HR & ms & us & W & Es & U & F).
  rewrite <- (app_nil_r (map Ok _)) in HR. apply Run_split in HR. destruct HR as (it' & HS & _).
  destruct (steps_tiles m d _ _ it' p p (Inv_start m d p sc Hl Hp) HS) as (s' & e2 & c2 & T & _).
  apply tiles_weights in T; [|lia]. rewrite Es in T. pose proof (messages_weight ms 0 us W U).
  assert (L : zlen us = g_len g) by (unfold g_len, zlen; f_equal; eapply F2_length; exact F).
  exists ms, us. repeat split; try assumption. rewrite <- L. lia.
Qed.
Lemma len_bound : forall m fuel s g, grib2_read m fuel s = Ret (Ok g) -> zlen (data s) < 2 ^ 63 -> 0 <= pos s <= zlen (data s) ->
  26 * g_len g <= zlen (data s).
Proof.
  intros m fuel s g E Hl Hp. destruct (file_bound m fuel s g E Hl Hp) as (ms & us & _ & _ & _ & _ & H). pose proof (zlen_nonneg _ ms). lia.
Qed.
