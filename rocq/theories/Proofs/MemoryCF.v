(** Complex packing with room for a limited number of items: the groups. *)
From Coq Require Import Lia ZifyBool ZifyNat.
From Verif Require Import Model.Base Model.Helpers Model.Errors Model.F32 Model.Stream Model.Diff Model.Complex Model.Bitmap Model.Simple Model.Decoder Model.MemoryC.
From Verif Require Import Spec.Bits Spec.ReaderS Spec.FieldsS Spec.GroupsS Spec.MemoryCS.
From Verif Require Import Proofs.BaseLemmas Proofs.HelpersP Proofs.BitsP Proofs.StreamP Proofs.DiffP Proofs.FieldsP Proofs.RefuseX Proofs.GroupsP Proofs.GroupsX Proofs.NearP Proofs.MemoryCP.
Ltac Zify.zify_post_hook ::= Z.div_mod_to_equations.
Notation LS k := (less (stop k)).

Lemma mcollect_less {A} : forall fuel left (it : iter A), LS Full (mcollect left fuel it) (collect fuel it).
Proof.
  induction fuel as [|fuel IH]; intros left it; [apply ls_refl|]. cbn [mcollect collect]. apply ls_bind; [apply ls_refl|]. intros [[a|] it']; [|apply ls_refl].
  destruct (left <=? 0); [left; reflexivity|]. apply ls_bind; [apply IH|intros; apply ls_refl].
Qed.
Lemma mcollect_enough {A B} (h : A -> outcome B) : forall fuel left n (it : iter A), n <= left ->
  mcollect left fuel (imap h (itake n it)) = collect fuel (imap h (itake n it)).
Proof.
  induction fuel as [|fuel IH]; intros left n it Hn; [reflexivity|]. cbn [mcollect collect].
  destruct it as [S s f]. unfold imap, itake. cbn [istep icur ist]. unfold next. cbn [istep icur ist].
  destruct (Z.leb_spec n 0) as [H|H]; cbn [bind]; [reflexivity|].
  destruct (f s) as [[[a|] s']| |]; cbn [bind]; [|reflexivity|reflexivity|reflexivity]. destruct (h a) as [b| |]; cbn [bind]; [|reflexivity|reflexivity].
  replace (left <=? 0) with false by lia. specialize (IH (left - 1) (n - 1) (MkIter S s' f) ltac:(lia)). unfold imap, itake in IH. cbn [istep icur ist] in IH. rewrite IH. reflexivity.
Qed.
Lemma mcollect_most {A} : forall fuel left (it : iter A) l, 0 <= left -> mcollect left fuel it = Ret l -> zlen l <= left.
Proof.
  induction fuel as [|fuel IH]; intros left it l Hl E; [discriminate E|]. cbn [mcollect] in E. destruct (next it) as [[[a|] it']| |]; cbn [bind] in E; try discriminate E.
  - destruct (Z.leb_spec left 0) as [H|H]; [discriminate E|]. destruct (mcollect (left - 1) fuel it') as [t| |] eqn:Et; cbn [bind] in E; try discriminate E. injection E as <-. rewrite zlen_cons. specialize (IH (left - 1) it' t ltac:(lia) Et). lia.
  - injection E as <-. rewrite zlen_nil. lia.
Qed.

Lemma mpacked_less left m mvm zmin data pos off ref w len :
  LS Full (mgroup_packed left m mvm zmin data pos off ref w len) (group_packed m mvm zmin data pos off ref w len).
Proof.
  unfold mgroup_packed, group_packed. destruct (_ <? _); [apply ls_refl|]. cbv zeta. do 4 (apply ls_bind; [apply ls_refl|]; intros ?). apply ls_bind; [apply mcollect_less|intros; apply ls_refl].
Qed.
Lemma mpacked_enough left m mvm zmin data pos off ref w len : len <= left ->
  mgroup_packed left m mvm zmin data pos off ref w len = group_packed m mvm zmin data pos off ref w len.
Proof.
  intros H. unfold mgroup_packed, group_packed. destruct (_ <? _); [reflexivity|]. cbv zeta. destruct (shl m U32 1 w) as [one| |]; cbn [bind]; try reflexivity.
  destruct (arith m U32 (one - 1)) as [m1| |]; cbn [bind]; try reflexivity. destruct (arith m U32 (m1 - 1)) as [m2| |]; cbn [bind]; try reflexivity.
  destruct (slice data pos _) as [dd| |]; cbn [bind]; try reflexivity. rewrite mcollect_enough by exact H. reflexivity.
Qed.
Lemma mconstant_less left m mvm nbit zmin ref len : LS Full (mgroup_constant left m mvm nbit zmin ref len) (group_constant m mvm nbit zmin ref len).
Proof.
  unfold mgroup_constant. destruct (group_constant m mvm nbit zmin ref len) as [vs| |]; cbn [bind]; [|right; reflexivity|right; reflexivity]. destruct (len <=? left); [right|left]; reflexivity.
Qed.
Lemma mconstant_enough left m mvm nbit zmin ref len : len <= left -> mgroup_constant left m mvm nbit zmin ref len = group_constant m mvm nbit zmin ref len.
Proof.
  intros H. unfold mgroup_constant. destruct (group_constant m mvm nbit zmin ref len) as [vs| |]; cbn [bind]; [|reflexivity|reflexivity]. replace (len <=? left) with true by lia. reflexivity.
Qed.
Lemma constant_len m mvm nbit zmin ref len vs : 0 <= len -> group_constant m mvm nbit zmin ref len = Ret vs -> zlen vs = len.
Proof.
  intros H E. unfold group_constant in E. destruct (_ <? _); [discriminate E|]. destruct (shl m I32 1 nbit) as [one| |]; cbn [bind] in E; try discriminate E.
  destruct (arith m I32 (one - 1)) as [m1| |]; cbn [bind] in E; try discriminate E. destruct (arith m I32 (m1 - 1)) as [m2| |]; cbn [bind] in E; try discriminate E.
  destruct (_ && _); [injection E as <-; unfold zlen; rewrite repeat_length; lia|]. destruct (_ && _); [injection E as <-; unfold zlen; rewrite repeat_length; lia|].
  destruct (arith m I32 (ref + zmin)); cbn [bind] in E; try discriminate E. injection E as <-. unfold zlen. rewrite repeat_length. lia.
Qed.

Lemma imap_len {A B} (h : A -> outcome B) : forall l e (it : iter A), Run it l e -> forall fuel r, collect fuel (imap h it) = Ret r -> length r = length l.
Proof.
  intros l e it R. induction R as [it it' E|it E|it it' a l e E R IH]; intros fuel r C; (destruct fuel as [|fuel]; [discriminate C|]); destruct it as [S s f]; cbn [collect] in C; unfold imap, next in C; cbn [istep icur ist] in C; unfold next in E; cbn [istep icur ist] in E;
    destruct (f s) as [[o s']| |]; try discriminate E; cbn [bind] in C; try discriminate C.
  - injection E as -> _. cbn [bind] in C. injection C as <-. reflexivity.
  - injection E as -> <-. destruct (h a) as [b| |]; cbn [bind] in C; try discriminate C. specialize (IH fuel). unfold imap in IH. cbn [istep icur ist] in IH.
    match type of C with bind ?x _ = _ => destruct x as [t| |] eqn:Et end; cbn [bind] in C; try discriminate C. injection C as <-. cbn [length]. f_equal. apply (IH t eq_refl).
Qed.
(** A group with incremental data has as many values as its length says. *)
Lemma packed_len m mvm zmin data pos off ref w len vs p' o' : 0 <= pos -> 0 <= off < 8 -> 1 <= w -> 0 <= len ->
  group_packed m mvm zmin data pos off ref w len = Ret (vs, p', o') -> zlen vs = len /\ 0 <= p' /\ 0 <= o' < 8.
Proof.
  intros Hp Ho Hw Hl E. unfold group_packed in E. destruct (_ <? _); [discriminate E|]. cbv zeta in E. destruct (shl m U32 1 w) as [one| |]; cbn [bind] in E; try discriminate E.
  destruct (arith m U32 (one - 1)) as [m1| |]; cbn [bind] in E; try discriminate E. destruct (arith m U32 (m1 - 1)) as [m2| |]; cbn [bind] in E; try discriminate E.
  set (bits := off + w * len) in *. assert (0 <= w * len) by nia. assert (0 <= bits) by (subst bits; lia).
  destruct (slice data pos _) as [dd| |] eqn:Es; cbn [bind] in E; try discriminate E.
  assert (Hin : 8 * pos + off + w * len <= 8 * zlen data).
  { unfold slice in Es. destruct (_ && _) eqn:B; [|discriminate Es]. destruct (0 <? bits mod 8) eqn:X; subst bits; lia. }
  destruct (packed_values m data pos off w len Hp Ho Hw Hl Hin) as (d2 & vals & Es2 & Lv & _ & HR). fold bits in Es2. rewrite Es in Es2. injection Es2 as <-.
  match type of E with bind ?x _ = _ => destruct x as [t| |] eqn:Et end; cbn [bind] in E; try discriminate E. injection E as <- <- <-.
  apply (imap_len _ _ _ _ HR) in Et. split; [unfold zlen in *; lia|]. lia.
Qed.
Lemma mpacked_len left m mvm zmin data pos off ref w len vs p' o' : 0 <= pos -> 0 <= off < 8 -> 1 <= w -> 0 <= len -> 0 <= left ->
  mgroup_packed left m mvm zmin data pos off ref w len = Ret (vs, p', o') -> zlen vs = len /\ len <= left /\ 0 <= p' /\ 0 <= o' < 8.
Proof.
  intros Hp Ho Hw Hl Hleft E. assert (U : zlen vs <= left).
  { unfold mgroup_packed in E. destruct (_ <? _); [discriminate E|]. cbv zeta in E. destruct (shl m U32 1 w) as [one| |]; cbn [bind] in E; try discriminate E.
    destruct (arith m U32 (one - 1)) as [m1| |]; cbn [bind] in E; try discriminate E. destruct (arith m U32 (m1 - 1)) as [m2| |]; cbn [bind] in E; try discriminate E.
    destruct (slice data pos _) as [dd| |]; cbn [bind] in E; try discriminate E. match type of E with bind ?x _ = _ => destruct x as [t| |] eqn:Et end; cbn [bind] in E; try discriminate E. injection E as <- _ _.
    eapply mcollect_most; eassumption. }
  destruct (mpacked_less left m mvm zmin data pos off ref w len) as [L|L]; [rewrite L in E; discriminate E|]. rewrite E in L. symmetry in L. destruct (packed_len _ _ _ _ _ _ _ _ _ _ _ _ Hp Ho Hw Hl L) as (<- & H1 & H2). auto.
Qed.

Section G.
  Variables R W L : Type.
  Variable ref_next : R -> outcome (option Z * R).
  Variable width_next : W -> outcome (option Z * W).
  Variable len_next : L -> outcome (option Z * L).
  Variable left : Z.
  Variable m : mode.
  Variables mvm nbit zmin : Z.
  Variable data : list byte.
  Notation gnext := (groups_next R W L ref_next width_next len_next m mvm nbit zmin data).
  Notation fnext := (flat_next R W L ref_next width_next len_next m mvm nbit zmin data).
  Notation mgnext := (mgroups_next R W L ref_next width_next len_next left m mvm nbit zmin data).
  Notation mfnext := (mflat_next R W L ref_next width_next len_next left m mvm nbit zmin data).

  Lemma mgroups_less s : LS Full (mgnext s) (gnext s).
  Proof.
    destruct s as [r w l pos off]. unfold mgroups_next, groups_next. apply ls_bind; [apply ls_refl|]. intros [o1 r']. apply ls_bind; [apply ls_refl|]. intros [o2 w']. apply ls_bind; [apply ls_refl|]. intros [o3 l'].
    destruct o1 as [ref|]; [|apply ls_refl]. destruct o2 as [width|]; [|apply ls_refl]. destruct o3 as [len|]; [|apply ls_refl]. destruct (width =? 0).
    - apply ls_bind; [apply mconstant_less|intros; apply ls_refl].
    - apply ls_bind; [apply mpacked_less|intros; apply ls_refl].
  Qed.
  Lemma mflat_less : forall f s, LS Full (mfnext f s) (fnext f s).
  Proof.
    induction f as [|f IH]; intros [[|v front] [g|]]; try apply ls_refl. cbn [mflat_next flat_next]. apply ls_bind; [apply mgroups_less|]. intros [[vs|] g']; [apply IH|apply ls_refl].
  Qed.

  (** Enough room for each group. *)
  Definition short_groups (s : flat_state R W L) : Prop :=
    match snd s with None => True | Some g => exists ls e, Run (MkIter L (gs_len _ _ _ g) len_next) ls e /\ Forall (fun l => l <= left) ls end.
  Lemma mflat_enough : forall f s, short_groups s ->
    match fnext f s with Ret (o, s') => mfnext f s = Ret (o, s') /\ short_groups s' | x => mfnext f s = x end.
  Proof.
    induction f as [|f IH]; intros [[|v front] [g|]] H; cbn [mflat_next flat_next]; auto. destruct g as [r w l pos off]. destruct H as (ls & e & HR & HF). cbn [snd gs_len] in HR.
    assert (G : match gnext (GS r w l pos off) with Ret (Some vs, g') => mgnext (GS r w l pos off) = Ret (Some vs, g') /\ short_groups (vs, Some g') | x => mgnext (GS r w l pos off) = x end).
    { unfold mgroups_next, groups_next. destruct (ref_next r) as [[o1 r']| |]; cbn [bind]; auto. destruct (width_next w) as [[o2 w']| |]; cbn [bind]; auto. destruct (len_next l) as [[o3 l']| |] eqn:El; cbn [bind]; auto.
      destruct o1 as [ref|]; auto. destruct o2 as [width|]; auto. destruct o3 as [len|]; auto.
      assert (K : len <= left /\ exists ls', Run (MkIter L l' len_next) ls' e /\ Forall (fun l => l <= left) ls').
      { inversion HR as [x x' Hx|x Hx|x x' a ls' e' Hx HR']; subst; unfold next in Hx; cbn [istep icur ist] in Hx; rewrite El in Hx; try discriminate Hx. injection Hx as <- <-. apply Forall_cons_iff in HF. destruct HF as [H1 H2]. eauto. }
      destruct K as (Hlen & ls' & HR' & HF').
      destruct (width =? 0).
      - rewrite mconstant_enough by exact Hlen. destruct (group_constant m mvm nbit zmin ref len) as [vs| |]; cbn [bind]; auto. split; [reflexivity|]. exists ls', e. auto.
      - rewrite mpacked_enough by exact Hlen. destruct (group_packed m mvm zmin data pos off ref width len) as [[[vs p'] o']| |]; cbn [bind]; auto. split; [reflexivity|]. exists ls', e. auto. }
    destruct (gnext (GS r w l pos off)) as [[[vs|] g']| |]; cbn [bind].
    - destruct G as (-> & G). cbn [bind]. apply IH, G.
    - rewrite G. cbn [bind]. split; [reflexivity|exact I].
    - rewrite G. reflexivity.
    - rewrite G. reflexivity.
  Qed.

  (** How many items come out. *)
  Hypothesis Hleft : 0 <= left.
  Lemma before_nonneg : forall ls, Forall (fun l => 0 <= l) ls -> 0 <= points_before left ls.
  Proof. induction 1 as [|l ls H HF IH]; cbn [points_before]; [lia|]. destruct (l <=? left); lia. Qed.
  Definition most (s : flat_state R W L) (k : Z) : Prop :=
    match snd s with
    | None => zlen (fst s) <= k
    | Some (GS r w l pos off) => 0 <= pos /\ 0 <= off < 8 /\ exists ws ls ew el, Run (MkIter W w width_next) ws ew /\ Forall (fun w => 0 <= w) ws /\
        Run (MkIter L l len_next) ls el /\ Forall (fun l => 0 <= l) ls /\ zlen (fst s) + points_before left ls <= k
    end.
  Lemma most_nonneg s k : most s k -> 0 <= k.
  Proof.
    destruct s as [front [[r w l pos off]|]]; unfold most; cbn [fst snd]; pose proof (zlen_nonneg _ front); [|lia]. intros (_ & _ & ws & ls & ew & el & _ & _ & _ & HF & Hk). pose proof (before_nonneg ls HF). lia.
  Qed.
  Lemma mflat_most : forall f s k v s', most s k -> mfnext f s = Ret (Some v, s') -> most s' (k - 1).
  Proof.
    induction f as [|f IH]; intros [[|v front] [g|]] k v0 s' H E; cbn [mflat_next] in E; try discriminate E;
      try (injection E as <- <-; unfold most in *; cbn [fst snd] in *; destruct g as [r w l pos off]; destruct H as (H1 & H2 & ws & ls & ew & el & H3 & H4 & H5 & H6 & H7); split; [exact H1|]; split; [exact H2|]; exists ws, ls, ew, el; rewrite zlen_cons in H7; repeat split; auto; lia);
      try (injection E as <- <-; unfold most in *; cbn [fst snd] in *; rewrite zlen_cons in H; lia).
    destruct (mgnext g) as [[[vs|] g']| |] eqn:Eg; cbn [bind] in E; try discriminate E. eapply IH; [|exact E]. clear IH E.
    destruct g as [r w l pos off]. destruct H as (Hp & Ho & ws & ls & ew & el & HW & FW & HL & FL & Hk). cbn [fst] in Hk. change (zlen (@nil dv)) with 0 in Hk.
    unfold mgroups_next in Eg. destruct (ref_next r) as [[o1 r']| |]; cbn [bind] in Eg; try discriminate Eg. destruct (width_next w) as [[o2 w']| |] eqn:Ew; cbn [bind] in Eg; try discriminate Eg. destruct (len_next l) as [[o3 l']| |] eqn:El; cbn [bind] in Eg; try discriminate Eg.
    destruct o1 as [ref|]; [|discriminate Eg]. destruct o2 as [width|]; [|discriminate Eg]. destruct o3 as [len|]; [|discriminate Eg].
    inversion HW as [x x' Hx|x Hx|x x' a ws' e' Hx HW']; subst; unfold next in Hx; cbn [istep icur ist] in Hx; rewrite Ew in Hx; try discriminate Hx. injection Hx as <- <-.
    inversion HL as [x x' Hx|x Hx|x x' a ls' e' Hx HL']; subst; unfold next in Hx; cbn [istep icur ist] in Hx; rewrite El in Hx; try discriminate Hx. injection Hx as <- <-.
    apply Forall_cons_iff in FW, FL. destruct FW as [W0 FW], FL as [L0 FL]. cbn [points_before] in Hk.
    destruct (Z.eqb_spec width 0) as [Z0|Z0].
    - unfold mgroup_constant in Eg. destruct (group_constant m mvm nbit zmin ref len) as [c| |] eqn:Ec; cbn [bind] in Eg; try discriminate Eg. destruct (Z.leb_spec len left) as [H|H]; cbn [bind] in Eg; [|discriminate Eg]. injection Eg as <- <-.
      apply constant_len in Ec; [|exact L0]. split; [exact Hp|]. split; [exact Ho|]. exists ws', ls', ew, el. cbn [fst]. repeat split; auto. lia.
    - destruct (mgroup_packed left m mvm zmin data pos off ref width len) as [[[vs0 p'] o']| |] eqn:Ep; cbn [bind] in Eg; try discriminate Eg. injection Eg as <- <-.
      apply mpacked_len in Ep; auto; [|lia]. destruct Ep as (E1 & E2 & E3 & E4). split; [exact E3|]. split; [exact E4|]. exists ws', ls', ew, el. cbn [fst]. repeat split; auto. replace (len <=? left) with true in Hk by lia. lia.
  Qed.
  Lemma mflat_at_most F : forall s k, most s k -> at_most k (MkIter _ s (mfnext F)).
  Proof.
    intros s k H l it' St. remember (MkIter _ s (mfnext F)) as it eqn:Eit. revert s k H Eit. induction St as [it|it it1 it' a l N St IH]; intros s k H ->; [rewrite zlen_nil; eapply most_nonneg; exact H|].
    unfold next in N. cbn [istep icur ist] in N. destruct (mfnext F s) as [[o s']| |] eqn:E; try discriminate N. injection N as -> <-. rewrite zlen_cons. specialize (IH s' (k - 1) (mflat_most _ _ _ _ _ H E) eq_refl). lia.
  Qed.
End G.
