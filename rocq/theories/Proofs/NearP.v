(** Two iterators over the same states whose steps agree wherever the first one returns - and, if
    [ok], also where it does not. *)
From Coq Require Import Lia ZifyBool ZifyNat.
From Verif Require Import Model.Base Model.Diff Model.Bitmap Model.F32 Proofs.BaseLemmas.

Definition close {A S} (ok : Prop) (P : A -> Prop) (I : S -> Prop) (f g : S -> outcome (option A * S)) : Prop :=
  forall s, I s -> match f s with
  | Ret (o, s') => g s = Ret (o, s') /\ I s' /\ (forall a, o = Some a -> P a)
  | x => ok -> g s = x
  end.
Definition near {A} (ok : Prop) (P : A -> Prop) (it1 it2 : iter A) : Prop :=
  exists S (I : S -> Prop) s f g, it1 = MkIter S s f /\ it2 = MkIter S s g /\ I s /\ close ok P I f g.

Lemma near_refl A ok (it : iter A) : near ok (fun _ => True) it it.
Proof. destruct it as [S s f]. exists S, (fun _ => True), s, f, f. repeat split; auto. intros x _. destruct (f x) as [[o s']| |]; auto. Qed.
Lemma near_run A ok P : forall (it1 : iter A) l e, Run it1 l e -> forall it2, near ok P it1 it2 -> ok \/ e = End -> Run it2 l e.
Proof.
  induction 1 as [it it' H|it H|it it' a l e H R IH]; intros it2 (S & I & s & f & g & -> & -> & Is & C) K; pose proof (C s Is) as Cs; unfold next in H; cbn [istep icur ist] in H.
  - destruct (f s) as [[o s']| |]; try discriminate. injection H as -> <-. destruct Cs as (E & _). apply Run_end with (MkIter S s' g). unfold next. cbn [istep icur ist]. rewrite E. reflexivity.
  - destruct (f s) as [[o s']| |]; try discriminate. apply Run_crash. unfold next. cbn [istep icur ist]. destruct K as [K|K]; [|discriminate]. rewrite (Cs K). reflexivity.
  - destruct (f s) as [[o s']| |] eqn:Ef; try discriminate. injection H as -> <-. destruct Cs as (E & Is' & Ha). apply Run_cons with (MkIter S s' g).
    + unfold next. cbn [istep icur ist]. rewrite E. reflexivity.
    + apply IH; [|exact K]. exists S, I, s', f, g. auto.
Qed.
Lemma near_collect A ok P : forall fuel (it1 it2 : iter A), near ok P it1 it2 ->
  match collect fuel it1 with Ret l => collect fuel it2 = Ret l | x => ok -> collect fuel it2 = x end.
Proof.
  induction fuel as [|fuel IH]; intros it1 it2 (S & I & s & f & g & -> & -> & Is & C); [intros _; reflexivity|]. pose proof (C s Is) as Cs. cbn [collect]. unfold next. cbn [istep icur ist].
  destruct (f s) as [[[a|] s']| |] eqn:Ef; cbn [bind].
  - destruct Cs as (-> & Is' & Ha). cbn [bind]. specialize (IH (MkIter S s' f) (MkIter S s' g) ltac:(exists S, I, s', f, g; auto)).
    destruct (collect fuel (MkIter S s' f)) as [l| |]; cbn [bind]; [rewrite IH; reflexivity| |]; intros K; rewrite (IH K); reflexivity.
  - destruct Cs as (-> & _). reflexivity.
  - intros K. rewrite (Cs K). reflexivity.
  - intros K. rewrite (Cs K). reflexivity.
Qed.

Lemma near_imap A B ok (P : A -> Prop) (Q : B -> Prop) (h : A -> outcome B) (it1 it2 : iter A) : near ok P it1 it2 -> (forall a b, P a -> h a = Ret b -> Q b) -> near ok Q (imap h it1) (imap h it2).
Proof.
  intros (S & I & s & f & g & -> & -> & Is & C) HQ. unfold imap. cbn [istep icur ist].
  exists S, I, s. eexists _, _. split; [reflexivity|]. split; [reflexivity|]. split; [exact Is|]. intros x Ix. specialize (C x Ix). destruct (f x) as [[[a|] s']| |]; cbn [bind].
  - destruct C as (-> & I' & Pa). cbn [bind]. destruct (h a) as [b| |] eqn:Eh; cbn [bind]; auto. repeat split; auto. intros b' [= <-]. eapply HQ; [apply Pa; reflexivity|exact Eh].
  - destruct C as (-> & I' & Pa). cbn [bind]. repeat split; auto. discriminate.
  - intros K. rewrite (C K). reflexivity.
  - intros K. rewrite (C K). reflexivity.
Qed.
Lemma near_itake A ok P (it1 it2 : iter A) n : near ok P it1 it2 -> near ok P (itake n it1) (itake n it2).
Proof.
  intros (S & I & s & f & g & -> & -> & Is & C). unfold itake. cbn [istep icur ist].
  exists (Z * S)%type, (fun x => I (snd x)), (n, s). eexists _, _. split; [reflexivity|]. split; [reflexivity|]. split; [exact Is|]. intros [k x] Ix. cbn [snd] in Ix. destruct (k <=? 0); [cbn [snd]; repeat split; auto; discriminate|].
  specialize (C x Ix). destruct (f x) as [[o s']| |]; cbn [bind]; [|intros K; rewrite (C K); reflexivity|intros K; rewrite (C K); reflexivity].
  destruct C as (-> & I' & Pa). cbn [bind snd]. repeat split; auto.
Qed.
Lemma near_chain A ok (P : A -> Prop) (it1 it2 : iter A) x : near ok P it1 it2 -> P x -> near ok P (ichain_once it1 x) (ichain_once it2 x).
Proof.
  intros (S & I & s & f & g & -> & -> & Is & C) Px. unfold ichain_once. cbn [istep icur ist].
  exists (option S * bool)%type, (fun y => match fst y with Some s => I s | None => True end), (Some s, true). eexists _, _. split; [reflexivity|]. split; [reflexivity|]. split; [exact Is|].
  intros [os todo] Iy. cbn [fst] in Iy. destruct os as [y|].
  - specialize (C y Iy). destruct (f y) as [[[a|] s']| |]; cbn [bind]; [| |intros K; rewrite (C K); reflexivity|intros K; rewrite (C K); reflexivity].
    + destruct C as (-> & I' & Pa). cbn [bind fst]. repeat split; auto.
    + destruct C as (-> & I' & Pa). cbn [bind]. destruct todo; cbn [fst]; repeat split; auto; try discriminate. intros a [= <-]. exact Px.
  - destruct todo; cbn [fst]; repeat split; auto; try discriminate. intros a [= <-]. exact Px.
Qed.
Lemma near_weak A (ok : Prop) (P Q : A -> Prop) (it1 it2 : iter A) : near ok P it1 it2 -> (forall a, P a -> Q a) -> near ok Q it1 it2.
Proof.
  intros (S & I & s & f & g & -> & -> & Is & C) H. exists S, I, s, f, g. repeat split; auto. intros x Ix. specialize (C x Ix). destruct (f x) as [[o s']| |]; auto. destruct C as (E & I' & Pa). auto.
Qed.
Lemma near_diff1 ok m P (it1 it2 : iter dv) l : near ok P it1 it2 -> near ok (fun _ => True) (diff1_iter m it1 l) (diff1_iter m it2 l).
Proof.
  intros (S & I & s & f & g & -> & -> & Is & C). unfold diff1_iter. cbn [istep icur ist].
  exists (diff1_state S), (fun x => I (d1_iter _ x)), (D1 s l 0 0). eexists _, _. split; [reflexivity|]. split; [reflexivity|]. split; [exact Is|]. intros [x fi co pr] Ix. cbn [d1_iter] in Ix. specialize (C x Ix). cbn [diff1_next].
  destruct (f x) as [[o s']| |]; cbn [bind]; [|intros K; rewrite (C K); reflexivity|intros K; rewrite (C K); reflexivity].
  destruct C as (-> & I' & _). cbn [bind]. destruct o as [[v| |]|]; cbn [d1_iter]; auto.
  destruct (co =? 0); [destruct fi; cbn [d1_iter]; auto|]. destruct (arith m I32 (v + pr)); cbn [bind d1_iter]; auto.
Qed.
Lemma near_diff2 ok m P (it1 it2 : iter dv) l : near ok P it1 it2 -> near ok (fun _ => True) (diff2_iter m it1 l) (diff2_iter m it2 l).
Proof.
  intros (S & I & s & f & g & -> & -> & Is & C). unfold diff2_iter. cbn [istep icur ist].
  exists (diff2_state S), (fun x => I (d2_iter _ x)), (D2 s l 0 0 0). eexists _, _. split; [reflexivity|]. split; [reflexivity|]. split; [exact Is|]. intros [x fi co p1 p2] Ix. cbn [d2_iter] in Ix. specialize (C x Ix). cbn [diff2_next].
  destruct (f x) as [[o s']| |]; cbn [bind]; [|intros K; rewrite (C K); reflexivity|intros K; rewrite (C K); reflexivity].
  destruct C as (-> & I' & _). cbn [bind]. destruct o as [[v| |]|]; cbn [d2_iter]; auto.
  destruct (co =? 0); [destruct fi; cbn [d2_iter]; auto|]. destruct (co =? 1); [destruct fi; cbn [d2_iter]; auto|].
  destruct (arith m I32 (2 * p1)) as [t| |]; cbn [bind]; auto. destruct (arith m I32 (v + t)) as [t'| |]; cbn [bind]; auto. destruct (arith m I32 (t' - p2)); cbn [bind d2_iter]; auto.
Qed.
Lemma near_bitmap A ok P (nan : A) (it1 it2 : iter A) bm len : near ok P it1 it2 ->
  near ok (fun _ => True) (MkIter (bitmap_state (ist it1)) (BM bm (icur it1) len 0) (bitmap_next nan (ist it1) (istep it1)))
                          (MkIter (bitmap_state (ist it2)) (BM bm (icur it2) len 0) (bitmap_next nan (ist it2) (istep it2))).
Proof.
  intros (S & I & s & f & g & -> & -> & Is & C). cbn [istep icur ist].
  exists (bitmap_state S), (fun x => I (bm_values x)), (BM bm s len 0). eexists _, _. split; [reflexivity|]. split; [reflexivity|]. split; [exact Is|]. intros [b x n o] Ix. cbn [bm_values] in Ix. specialize (C x Ix). unfold bitmap_next.
  destruct (n <=? o); [cbn [bm_values]; auto|]. destruct (if o <? 7 then _ else _) as [[ob b'] o']. destruct ob as [c|]; [|cbn [bm_values]; auto].
  destruct (has_zero_at_offset c o); [cbn [bm_values]; auto|]. destruct (f x) as [[oa s']| |]; cbn [bind]; [|intros K; rewrite (C K); reflexivity|intros K; rewrite (C K); reflexivity].
  destruct C as (-> & I' & _). cbn [bind bm_values]. auto.
Qed.
