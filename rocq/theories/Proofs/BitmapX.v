(** C05 and C06: exact counts and exact hints of the bitmap iterator. *)
From Coq Require Import Lia ZifyBool ZifyNat.
From Verif Require Import Model.Base Model.Bitmap Spec.Bits Spec.BitmapS Proofs.BaseLemmas Proofs.BitsP Proofs.BitmapP.
Ltac Zify.zify_post_hook ::= Z.div_mod_to_equations.

Lemma place_split : forall A (nan : A) b1 b2 vals, (ones b1 <= length vals)%nat ->
  place nan (b1 ++ b2) vals = place nan b1 vals ++ place nan b2 (skipn (ones b1) vals).
Proof.
  intros A nan b1 b2 vals H.
  rewrite <- (firstn_skipn (ones b1) vals) at 1.
  rewrite place_app by (rewrite firstn_length; lia). f_equal.
  clear b2. revert vals H. induction b1 as [|b b1 IH]; intros vals H; [reflexivity|].
  unfold ones in *. destruct b; cbn [place filter length] in *.
  - destruct vals as [|v vals]; cbn [length] in H; [lia|]. cbn [firstn]. f_equal. apply IH. lia.
  - f_equal. apply IH. exact H.
Qed.

(** The items yielded: one per grid point; then, from 8 points on, one per padding bit. *)
Lemma count : forall A (nan : A) bitmap values vals len, 0 <= len <= 8 * zlen bitmap -> Run values vals End ->
  let points := firstn (Z.to_nat len) (bits_of_bytes bitmap) in
  let padding := skipn (Z.to_nat len) (bits_of_bytes bitmap) in
  (ones points <= length vals)%nat ->
  exists it, bitmap_iter nan bitmap values len = Some it /\
    Run it (place nan points vals ++ if len <? 8 then [] else place nan padding (skipn (ones points) vals)) End /\
    zlen (place nan points vals) = len.
Proof.
  intros A nan bitmap values vals len Hl HV points padding Hp.
  destruct (bitmap_iter_run A nan bitmap values vals End len Hl HV) as (it & Ei & R). exists it.
  split; [exact Ei|]. split.
  - match type of R with Run _ _ (if ?c then _ else _) => replace (if c then End else End) with End in R by (destruct c; reflexivity) end.
    destruct (len <? 8).
    + rewrite app_nil_r. exact R.
    + rewrite <- place_split by exact Hp. unfold points, padding. rewrite firstn_skipn. exact R.
  - unfold zlen. rewrite place_length by exact Hp. unfold points. rewrite firstn_length, bits_of_bytes_length. unfold zlen in Hl. lia.
Qed.

(** With padding bits 0, the count is right exactly for fewer than 8 points or no padding. *)
Lemma count_right : forall A (nan : A) bitmap values vals len, 0 <= len <= 8 * zlen bitmap -> Run values vals End ->
  let points := firstn (Z.to_nat len) (bits_of_bytes bitmap) in
  Forall (fun b => b = false) (skipn (Z.to_nat len) (bits_of_bytes bitmap)) ->
  (ones points <= length vals)%nat ->
  exists it out, bitmap_iter nan bitmap values len = Some it /\ Run it out End /\
    (zlen out = len <-> len < 8 \/ len = 8 * zlen bitmap).
Proof.
  intros A nan bitmap values vals len Hl HV points F Hp.
  destruct (count A nan bitmap values vals len Hl HV Hp) as (it & Ei & R & L).
  eexists it, _. split; [exact Ei|]. split; [exact R|].
  rewrite zlen_app. change (zlen (place nan points vals) = len) in L. change (firstn (Z.to_nat len) (bits_of_bytes bitmap)) with points. rewrite L.
  assert (S : zlen (skipn (Z.to_nat len) (bits_of_bytes bitmap)) = 8 * zlen bitmap - len).
  { unfold zlen. rewrite skipn_length, bits_of_bytes_length. unfold zlen in Hl. lia. }
  destruct (Z.ltb_spec len 8) as [H8|H8].
  - rewrite zlen_nil. split; intros _; [left; exact H8|lia].
  - assert (E : zlen (place nan (skipn (Z.to_nat len) (bits_of_bytes bitmap)) (skipn (ones points) vals)) = 8 * zlen bitmap - len).
    { rewrite <- S. unfold zlen. f_equal. apply place_length. unfold ones.
      assert (Z0 : filter (fun b => b) (skipn (Z.to_nat len) (bits_of_bytes bitmap)) = []).
      { clear -F. induction F as [|b l -> F IH]; [reflexivity|exact IH]. }
      rewrite Z0. cbn [length]. lia. }
    rewrite E. lia.
Qed.

(** Fewer than 8 points: at most that many items. *)
Lemma steps_bound : forall A (nan : A) I step s l s', SSteps (bitmap_next nan I step) s l s' ->
  0 <= bm_offset s -> bm_len s < 8 -> bm_offset s <= bm_len s -> bm_offset s + zlen l <= bm_len s.
Proof.
  intros A nan I step s l s' H. induction H as [s|s s1 s' a l Hn HS IH]; intros H0 H8 Hle.
  - rewrite zlen_nil. lia.
  - assert (Hlt : bm_offset s < bm_len s).
    { destruct s as [bitmap values len offset]. unfold bitmap_next in Hn. cbn [bm_offset bm_len] in *.
      destruct (Z.leb_spec len offset) as [H|H]; [discriminate|exact H]. }
    apply bitmap_step_offset in Hn; [|lia]. destruct Hn as [E1 E2].
    rewrite zlen_cons. rewrite E1, E2 in IH.
    replace ((bm_offset s + 1) mod 8) with (bm_offset s + 1) in IH by lia.
    specialize (IH ltac:(lia) H8 ltac:(lia)). lia.
Qed.

(** The hint after any number of items. *)
Lemma hint : forall A (nan : A) I step m bitmap v len s l s',
  0 <= len < 2 ^ 64 -> bitmap_new I bitmap v len = Some s -> SSteps (bitmap_next nan I step) s l s' ->
  bitmap_size_hint I m s' = Ret (len - zlen l mod 8, Some (len - zlen l mod 8)).
Proof.
  intros A nan I step m bitmap v len s l s' Hl Hn HS.
  rewrite (bitmap_hint A nan I step m bitmap v len s l s' Hl Hn HS).
  assert (B : zlen l mod 8 <= len).
  { destruct (Z.lt_ge_cases len 8) as [H8|H8]; [|lia].
    unfold bitmap_new in Hn. destruct (zlen bitmap * 8 <? len); [discriminate|]. injection Hn as <-.
    apply steps_bound in HS; cbn [bm_offset bm_len] in *; try lia.
    pose proof (zlen_nonneg _ l). lia. }
  rewrite arith_ok; [reflexivity|]. change (min_of Usize) with 0. change (max_of Usize) with (2 ^ 64 - 1). lia.
Qed.

(** It is exact exactly during the first eight items, if the count is right. *)
Lemma hint_exact : forall A (nan : A) I step m bitmap v len s l s' rest,
  0 <= len < 2 ^ 64 -> bitmap_new I bitmap v len = Some s -> SSteps (bitmap_next nan I step) s l s' ->
  Run (MkIter _ s' (bitmap_next nan I step)) rest End -> zlen l + zlen rest = len ->
  (bitmap_size_hint I m s' = Ret (zlen rest, Some (zlen rest)) <-> zlen l < 8).
Proof.
  intros A nan I step m bitmap v len s l s' rest Hl Hn HS _ E.
  rewrite (hint A nan I step m bitmap v len s l s' Hl Hn HS).
  pose proof (zlen_nonneg _ l). split.
  - intros H1. injection H1 as H1. lia.
  - intros H1. repeat f_equal; lia.
Qed.
