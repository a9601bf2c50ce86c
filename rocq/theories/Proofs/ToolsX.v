(** The tools: submessage selection, output files, stream reads, generated enumerations. *)
From Coq Require Import Lia ZifyBool ZifyNat Floats.SpecFloat.
From Verif Require Import Model.Base Model.Helpers Model.Errors Model.F32 Model.F64 Model.Sections Model.Reader Model.Parser Model.Context Model.Product Model.Grid Model.Gaussian Model.Proj Model.Decoder Model.Tools.
From Verif Require Import Spec.Bits Spec.BitmapS Spec.ReaderS Spec.ParserS Spec.ContextS Spec.FieldsS Spec.FloatS Spec.SimpleS Spec.DecodeS Spec.ToolsS.
From Verif Require Import Proofs.BaseLemmas Proofs.ContextX Proofs.ViewX Proofs.ToolsP Proofs.ToolsF.
From Verif Require Proofs.BaseLemmas Proofs.ReaderP Proofs.DecodeX Proofs.DecodeP Proofs.KeepP Proofs.StreamP Proofs.HelpersP.
Ltac Zify.zify_post_hook ::= Z.div_mod_to_equations.

(** ** C49: finding the submessage *)
Lemma sub_indices : forall ms i us, submessages_of_all i ms us ->
  NoDup (map (fun u => (u_mi u, u_si u)) us) /\ forall u, In u us -> i <= u_mi u.
Proof.
  intros ms i us H. induction H as [i|i m ms us us' [L H] _ [ND Lo]].
  - split; [constructor|intros u []].
  - assert (K : forall u, In u us -> u_mi u = i).
    { intros u I. apply In_nth_error in I. destruct I as (k & I). destruct (H k u I) as (A & _). exact A. }
    split.
    + rewrite map_app. apply NoDup_nth_error. intros a b La E.
      assert (D : forall k x, nth_error (map (fun u => (u_mi u, u_si u)) us) k = Some x -> x = (i, Z.of_nat k)).
      { intros k x G. rewrite nth_error_map in G. destruct (nth_error us k) as [u|] eqn:Gu; [|discriminate].
        destruct (H k u Gu) as (A & B & _). cbn in G. congruence. }
      assert (D' : forall k x, nth_error (map (fun u => (u_mi u, u_si u)) us') k = Some x -> i + 1 <= fst x).
      { intros k x G. rewrite nth_error_map in G. destruct (nth_error us' k) as [u|] eqn:Gu; [|discriminate].
        apply nth_error_In in Gu. apply Lo in Gu. cbn in G. injection G as <-. exact Gu. }
      set (l := map (fun u => (u_mi u, u_si u)) us) in *. set (l' := map (fun u => (u_mi u, u_si u)) us') in *. clearbody l l'.
      assert (Lb : (b < length (l ++ l'))%nat). { apply nth_error_Some. rewrite <- E. apply nth_error_Some. exact La. }
      rewrite app_length in La, Lb.
      destruct (Nat.lt_ge_cases a (length l)) as [A1|A1], (Nat.lt_ge_cases b (length l)) as [B1|B1].
      * rewrite !nth_error_app1 in E by assumption. destruct (nth_error l a) as [x|] eqn:Ea; [|apply nth_error_None in Ea; lia].
        apply D in Ea. symmetry in E. apply D in E. subst x. injection E as E. lia.
      * rewrite nth_error_app1, nth_error_app2 in E by assumption. destruct (nth_error l a) as [x|] eqn:Ea; [|apply nth_error_None in Ea; lia].
        apply D in Ea. symmetry in E. apply D' in E. subst x. cbn in E. lia.
      * rewrite nth_error_app2, nth_error_app1 in E by assumption. destruct (nth_error l b) as [x|] eqn:Eb; [|apply nth_error_None in Eb; lia].
        apply D in Eb. apply D' in E. subst x. cbn in E. lia.
      * rewrite !nth_error_app2 in E by assumption. rewrite NoDup_nth_error in ND. assert (a - length l = b - length l)%nat by (apply ND; [lia|exact E]). lia.
    + intros u I. apply in_app_or in I. destruct I as [I|I]; [rewrite (K u I); lia|]. apply Lo in I. lia.
Qed.

Lemma shows_index l us vs : Forall2 (shows l) us vs -> map (fun u => (u_mi u, u_si u)) us = map (fun v => (u_mi v, u_si v)) vs.
Proof. induction 1 as [|u v us vs (A & B & _) F IH]; [reflexivity|]. cbn [map]. rewrite A, B, IH. reflexivity. Qed.

Lemma find_from : forall g vs i fuel k, all_views g vs -> (length vs - k < fuel)%nat -> (k <= length vs)%nat ->
  cli_find fuel g (Z.of_nat k) i = Ret (find (fun v => (u_mi v =? fst i) && (u_si v =? snd i)) (skipn k vs)).
Proof.
  intros g vs i. induction fuel as [|fuel IH]; intros k H Hf Hk; [lia|]. cbn [cli_find]. rewrite (next_at g vs k false H).
  destruct (nth_error vs k) as [v|] eqn:E.
  - cbn [bind]. assert (Hs : skipn k vs = v :: skipn (S k) vs).
    { clear - E. revert vs E. induction k as [|k IH]; intros [|x vs] E; cbn [nth_error skipn] in *; try discriminate; [congruence|exact (IH _ E)]. }
    rewrite Hs. cbn [find]. destruct ((u_mi v =? fst i) && (u_si v =? snd i)); [reflexivity|].
    assert (k < length vs)%nat by (apply nth_error_Some; congruence). apply IH; [exact H|lia|lia].
  - cbn [bind]. apply nth_error_None in E. rewrite skipn_all2 by lia. reflexivity.
Qed.

Lemma NoDup_map_inj A B (f : A -> B) l : NoDup (map f l) -> forall a b, In a l -> In b l -> f a = f b -> a = b.
Proof.
  induction l as [|x l IH]; intros N a b Ia Ib E; [destruct Ia|]. cbn [map] in N. inversion N as [|? ? Nx N']. subst.
  destruct Ia as [->|Ia], Ib as [->|Ib]; auto.
  - exfalso. apply Nx. rewrite E. apply in_map. exact Ib.
  - exfalso. apply Nx. rewrite <- E. apply in_map. exact Ia.
Qed.

Lemma found : forall m fuel s g, grib2_read m fuel s = Ret (Ok g) -> zlen (data s) < 2 ^ 63 -> 0 <= pos s ->
  exists ms us vs, Forall wf_message ms /\ g_sections g = flat_map message_sections ms /\ submessages_of_all 0 ms us /\
    Forall2 (shows (g_sections g)) us vs /\ zlen vs = g_len g /\
    forall i rfuel, g_len g < Z.of_nat rfuel ->
    (forall v, In v vs -> (u_mi v, u_si v) = i -> cli_find rfuel g 0 i = Ret (Some v)) /\
    ((forall v, In v vs -> (u_mi v, u_si v) <> i) -> cli_find rfuel g 0 i = Ret None).
Proof.
  intros m fuel s g Hr Hd Hp. destruct (views m fuel s g Hr Hd Hp) as (ms & us & vs & W & Es & U & Sh & V).
  exists ms, us, vs. do 4 (split; [assumption|]).
  assert (Lv : zlen vs = g_len g). { unfold g_len, zlen. now rewrite (count_subs g vs V). }
  split; [exact Lv|]. intros [a b] rfuel Hf.
  assert (F : cli_find rfuel g 0 (a, b) = Ret (find (fun v => (u_mi v =? a) && (u_si v =? b)) vs)).
  { pose proof (find_from g vs (a, b) rfuel 0 V) as F. cbn [skipn Z.of_nat fst snd] in F. apply F; unfold zlen in *; lia. }
  pose proof (proj1 (sub_indices ms 0 us U)) as ND. rewrite (shows_index _ _ _ Sh) in ND.
  rewrite F. split.
  - intros v I E. match goal with |- context [find ?f vs] => destruct (find f vs) as [v'|] eqn:G end.
    + apply find_some in G. destruct G as [I' E']. do 2 f_equal. apply (NoDup_map_inj _ _ _ vs ND); [exact I'|exact I|]. cbn in E. injection E as E1 E2. f_equal; lia.
    + exfalso. pose proof (find_none _ _ G v I) as N. cbn in N. injection E as E1 E2. lia.
  - intros N. match goal with |- context [find ?f vs] => destruct (find f vs) as [v'|] eqn:G end; [|reflexivity]. exfalso. apply find_some in G. destruct G as [I' E']. apply (N v' I'). cbn. f_equal; lia.
Qed.

(** ** C50 *)
Lemma written : forall c m d it vs e fuel, dispatch c m d = Ret (Ok it) -> Run it vs e -> (length vs < fuel)%nat ->
  (e = End -> exists lb ll, write_values fuel to_be_bytes it = Ret lb /\ write_values fuel to_le_bytes it = Ret ll /\
     zlen lb = 4 * zlen vs /\ zlen ll = 4 * zlen vs /\ be_floats lb = vs /\ le_floats ll = vs) /\
  (e = Crash -> write_values fuel to_be_bytes it = Panic /\ write_values fuel to_le_bytes it = Panic).
Proof.
  intros c m d it vs e fuel D R Hf. pose proof (Keeps_Run _ _ _ _ _ R (valid_dispatch c m d it D)) as V.
  rewrite !(write_run _ it vs e R fuel Hf). split; intros ->; [|auto].
  destruct (be_back vs V) as [A B]. destruct (le_back vs V) as [A' B']. eexists _, _. split; [reflexivity|]. split; [reflexivity|]. auto.
Qed.

(** ** C60 *)
Lemma zip_run A B (it : iter A) ps : forall e, Run it ps e -> e = End -> forall (l : list B) fuel, (length l < fuel)%nat ->
  zip_items fuel it l = Ret (combine ps l).
Proof.
  intros e R. induction R as [it it' N|it N|it it' a ps e N R IH]; intros He l fuel Hf; [|discriminate|];
    (destruct fuel as [|fuel]; [lia|]); cbn [zip_items]; rewrite N; cbn [bind].
  - reflexivity.
  - destruct l as [|b l]; [reflexivity|]. cbn [length] in Hf. rewrite (IH He l fuel) by lia. reflexivity.
Qed.

Lemma collect_Run' A (it : iter A) l : forall e, Run it l e -> e = End -> forall fuel, (length l < fuel)%nat -> collect fuel it = Ret l.
Proof.
  intros e R. induction R as [it it' N|it N|it it' a l e N R IH]; intros He fuel Hf; [|discriminate|];
    (destruct fuel as [|fuel]; [cbn in Hf; lia|]); cbn [collect]; rewrite N; cbn [bind]; [reflexivity|].
  rewrite IH by (assumption || cbn in Hf; lia). reflexivity.
Qed.

Section Cli.
  Variables (m : mode) (rfuel : nat) (s : src) (g : grib2).
  Hypotheses (Hr : grib2_read m rfuel s = Ret (Ok g)) (Hd : zlen (data s) < 2 ^ 63) (Hp : 0 <= pos s <= zlen (data s)).
  Hypothesis Hg : 0 < g_len g < Z.of_nat rfuel.
  Variables (index a b : list byte).
  Hypotheses (Hi : index_string index a b) (Ha : decimal a < 2 ^ 64) (Hb : decimal b < 2 ^ 64).

  Lemma cli_start lm pl c gfuel fuel fmt :
    cli_decode m lm pl c rfuel gfuel fuel fmt s index =
    let! o := cli_find rfuel g 0 (decimal a, decimal b) in
    match o with None => Ret (Err NoSuchIndex) | Some v => cli_decode_view m lm pl c gfuel fuel fmt (g_src g) v end.
  Proof.
    unfold cli_decode, cli_grib. rewrite Hr. cbn [bind]. unfold g_is_empty. replace (g_len g =? 0) with false by lia. cbn [bind].
    rewrite (index_parsed index a b Hi). replace ((decimal a <? 2 ^ 64) && (decimal b <? 2 ^ 64)) with true by lia. reflexivity.
  Qed.

  Lemma cli_no_such lm pl c gfuel fuel fmt : (forall w v, In w (g_subs g) -> make_view g w = Some v -> (u_mi v, u_si v) <> (decimal a, decimal b)) ->
    cli_decode m lm pl c rfuel gfuel fuel fmt s index = Ret (Err NoSuchIndex).
  Proof.
    intros N. rewrite cli_start.
    destruct (views m rfuel s g Hr Hd ltac:(lia)) as (ms & us & vs & W & Es & U & Sh & V).
    pose proof (find_from g vs (decimal a, decimal b) rfuel 0 V) as F. cbn [skipn Z.of_nat fst snd] in F.
    rewrite F by (pose proof (count_subs g vs V); unfold g_len, zlen in *; lia). cbn [bind].
    match goal with |- context [find ?f vs] => destruct (find f vs) as [v'|] eqn:G end; [|reflexivity]. exfalso. apply find_some in G. destruct G as [I' E'].
    destruct (Forall2_in_r _ _ _ _ _ v' V I') as (w & Iw & Ew). apply (N w v' Iw Ew). f_equal; lia.
  Qed.

  Variables (w : submessage Z) (v : view).
  Hypotheses (Hw : In w (g_subs g)) (Hv : make_view g w = Some v) (Hx : (u_mi v, u_si v) = (decimal a, decimal b)).

  Lemma cli_selected lm pl c gfuel fuel fmt :
    cli_decode m lm pl c rfuel gfuel fuel fmt s index = cli_decode_view m lm pl c gfuel fuel fmt (g_src g) v.
  Proof.
    rewrite cli_start.
    destruct (views m rfuel s g Hr Hd ltac:(lia)) as (ms & us & vs & W & Es & U & Sh & V).
    pose proof (find_from g vs (decimal a, decimal b) rfuel 0 V) as F. cbn [skipn Z.of_nat fst snd] in F.
    rewrite F by (pose proof (count_subs g vs V); unfold g_len, zlen in *; lia). cbn [bind]. clear F.
    pose proof (proj1 (sub_indices ms 0 us U)) as ND. rewrite (shows_index _ _ _ Sh) in ND.
    destruct (Forall2_in_l _ _ _ _ _ w V Hw) as (v1 & I1 & E1). assert (v1 = v) by congruence. subst v1. injection Hx as X1 X2.
    match goal with |- context [find ?f vs] => destruct (find f vs) as [v'|] eqn:G end.
    - apply find_some in G. destruct G as [I' E']. replace v' with v; [reflexivity|].
      apply (NoDup_map_inj _ _ _ vs ND); [exact I1|exact I'|]. f_equal; lia.
    - exfalso. pose proof (find_none _ _ G v I1) as N. cbn in N. lia.
  Qed.

  (** What is written, given what the library returns. *)
  Lemma cli_output_spec : forall lm pl c gfuel fuel latlons dec s' it out,
    sub_latlons m lm pl gfuel (octets (data s) (s_offset (snd (u_3 v)) + 5) (s_size (snd (u_3 v)) - 5)) = Ret latlons ->
    decoder_from m (g_src g) v = Ret (Ok dec, s') -> dispatch c m dec = Ret (Ok it) -> Run it out End -> (length out < fuel)%nat ->
    (exists l, cli_decode m lm pl c rfuel gfuel fuel BigEndian s index = Ret (Ok (Octets l)) /\ zlen l = 4 * zlen out /\ be_floats l = out) /\
    (exists l, cli_decode m lm pl c rfuel gfuel fuel LittleEndian s index = Ret (Ok (Octets l)) /\ zlen l = 4 * zlen out /\ le_floats l = out) /\
    match latlons with
    | Ok pts => forall ps, Run (points_iter m pts) ps End ->
        cli_decode m lm pl c rfuel gfuel fuel Text s index = Ret (Ok (Lines (combine ps out)))
    | Err NotSupported =>
        cli_decode m lm pl c rfuel gfuel fuel Text s index = Ret (Ok (Lines (map (fun x => ((f32_nan, f32_nan), x)) out)))
    | Err e => cli_decode m lm pl c rfuel gfuel fuel Text s index = Ret (Err (Unexpected e))
    end.
  Proof.
    intros lm pl c gfuel fuel latlons dec s' it out L D1 D2 R Hf. rewrite !cli_selected. unfold cli_decode_view.
    destruct (file_bodies m rfuel s g Hr Hd Hp w v Hw Hv) as (_ & _ & B3' & _). rewrite B3'. cbn [bind]. rewrite L. cbn [bind]. rewrite D1. cbn [bind].
    rewrite D2. cbn [bind]. destruct (written c m dec it out End fuel D2 R Hf) as [Wr _].
    destruct (Wr eq_refl) as (lb & ll & -> & -> & Z1 & Z2 & F1 & F2). cbn [bind].
    split; [exists lb; auto|]. split; [exists ll; auto|].
    rewrite (collect_Run' _ it out End R eq_refl fuel Hf). cbn [bind].
    destruct latlons as [pts|e].
    - intros ps Rp. rewrite (zip_run _ _ _ ps End Rp eq_refl out fuel Hf). reflexivity.
    - assert (Z : zip_items fuel (iter_of_list (repeat (f32_nan, f32_nan) (length out))) out = Ret (map (fun x => ((f32_nan, f32_nan), x)) out)).
      { rewrite (zip_run _ _ _ _ End (BaseLemmas.Run_iter_of_list _ _) eq_refl out fuel Hf). f_equal.
        clear. induction out as [|x out IH]; [reflexivity|]. cbn [length repeat combine map]. now rewrite IH. }
      destruct e; try reflexivity. rewrite Z. reflexivity.
  Qed.

  Lemma cli_errors_spec : forall lm pl c gfuel fuel fmt latlons e,
    sub_latlons m lm pl gfuel (octets (data s) (s_offset (snd (u_3 v)) + 5) (s_size (snd (u_3 v)) - 5)) = Ret latlons ->
    (exists s', decoder_from m (g_src g) v = Ret (Err e, s')) \/
    (exists dec s', decoder_from m (g_src g) v = Ret (Ok dec, s') /\ dispatch c m dec = Ret (Err e)) ->
    cli_decode m lm pl c rfuel gfuel fuel fmt s index = Ret (Err (Grib e)).
  Proof.
    intros lm pl c gfuel fuel fmt latlons e L D. rewrite cli_selected. unfold cli_decode_view.
    destruct (file_bodies m rfuel s g Hr Hd Hp w v Hw Hv) as (_ & _ & B3' & _). rewrite B3'. cbn [bind]. rewrite L. cbn [bind].
    destruct D as [(s' & ->)|(dec & s' & -> & D)]; cbn [bind]; [reflexivity|]. rewrite D. reflexivity.
  Qed.

  (** End to end. *)
  Lemma cli_values : 5 <= s_size (snd (u_7 v)) ->
    forall c refbits e dec pts, 0 <= refbits < 2 ^ 32 -> ieee_finite refbits -> -127 <= e <= 127 -> -38 <= dec <= 37 ->
    encodes c refbits e dec (packing (data s) v) (packed_data (data s) v) pts ->
    mask_ok (data s) v -> ones (mask (data s) v) = length pts ->
    forall lm pl gfuel latlons,
    sub_latlons m lm pl gfuel (octets (data s) (s_offset (snd (u_3 v)) + 5) (s_size (snd (u_3 v)) - 5)) = Ret latlons ->
    exists N out, decodes_to (data s) v (item refbits e dec) pts out /\
    forall fuel, (N <= fuel)%nat ->
    (exists l, cli_decode m lm pl c rfuel gfuel fuel BigEndian s index = Ret (Ok (Octets l)) /\ zlen l = 4 * zlen out /\ be_floats l = out) /\
    (exists l, cli_decode m lm pl c rfuel gfuel fuel LittleEndian s index = Ret (Ok (Octets l)) /\ zlen l = 4 * zlen out /\ le_floats l = out) /\
    match latlons with
    | Ok points => forall ps, Run (points_iter m points) ps End ->
        cli_decode m lm pl c rfuel gfuel fuel Text s index = Ret (Ok (Lines (combine ps out)))
    | Err NotSupported =>
        cli_decode m lm pl c rfuel gfuel fuel Text s index = Ret (Ok (Lines (map (fun x => ((f32_nan, f32_nan), x)) out)))
    | Err err => cli_decode m lm pl c rfuel gfuel fuel Text s index = Ret (Err (Unexpected err))
    end.
  Proof.
    intros H7 c refbits e dec pts A1 A2 A3 A4 En Mk On lm pl gfuel latlons L.
    destruct (g_src g) as [d p sc] eqn:Es.
    assert (Ed : d = data s). { pose proof (KeepP.reader_data m rfuel s g Hr Hd ltac:(lia)) as K. rewrite Es in K. exact K. }
    destruct (DecodeX.decode_file m rfuel s g Hr Hd Hp w v Hw Hv H7 c refbits e dec pts A1 A2 A3 A4 En Mk On m m p sc) as (dc & s' & it & out & D1 & _ & D2 & R & DT & _).
    exists (S (length out)), out. split; [exact DT|]. intros fuel Hf.
    apply (cli_output_spec lm pl c gfuel fuel latlons dc s' it out L); [rewrite Es, Ed; exact D1|exact D2|exact R|lia].
  Qed.
End Cli.

(** ** C59 *)
Lemma list_points : forall m fuel s g, grib2_read m fuel s = Ret (Ok g) -> zlen (data s) < 2 ^ 63 -> 0 <= pos s <= zlen (data s) ->
  forall w v, In w (g_subs g) -> make_view g w = Some v ->
  let n := grid_points (data s) v in let k := packed_points (data s) v in
  (k <= n -> forall m', cli_list_points m' v = Ret (n - k, n)) /\
  (n < k -> cli_list_points Checked v = Panic /\ cli_list_points Wrapping v = Ret (2 ^ 32 + n - k, n)).
Proof.
  intros m fuel s g Hr Hd Hp w v Hw Hv n k. unfold cli_list_points, v_grid_def, v_repr_def.
  destruct (DecodeP.decoder_fields m fuel s g w v Hr Hd Hp Hw Hv) as (E3 & E5 & _ & G3 & G5 & _ & Rn & Rk & _).
  rewrite E3, E5. cbn [bind]. rewrite G3, G5. cbn [bind]. fold n k in Rn, Rk |- *. change (2 ^ 32) with 4294967296 in *. split.
  - intros H m'. rewrite arith_ok by mlia. reflexivity.
  - intros H. split.
    + unfold arith, in_range. replace (_ && _) with false by mlia. reflexivity.
    + unfold arith, in_range. replace (_ && _) with false by mlia. cbn [bind]. rewrite wrap_unsigned by reflexivity.
      change (2 ^ bits_of U32) with 4294967296. do 2 f_equal. lia.
Qed.

(** ** C52: stream reads *)
Lemma reads_from : forall m buf calls off, zlen buf < 2 ^ 63 -> 0 <= off <= zlen buf -> Forall (fun c => 0 <= snd c) calls ->
  exists outs, reads m buf off calls outs /\ outs = deliveries (skipn (Z.to_nat off) buf) calls.
Proof.
  intros m buf calls. induction calls as [|[null nb] calls IH]; intros off Hb Ho F.
  - exists []. split; constructor.
  - inversion F as [|? ? Hn F']. subst. cbn [snd] in Hn.
    assert (E : exists out off', opj_stream_read m buf off null nb = Ret (out, off') /\ 0 <= off' <= zlen buf /\
      out :: deliveries (skipn (Z.to_nat off') buf) calls = deliveries (skipn (Z.to_nat off) buf) ((null, nb) :: calls)).
    { unfold opj_stream_read. destruct null; [eexists _, _; split; [reflexivity|split; [exact Ho|reflexivity]]|].
      change (2 ^ 63) with 9223372036854775808 in Hb.
      rewrite (arith_ok m Usize (zlen buf - off)) by mlia. cbn [bind].
      rewrite (arith_ok m Usize (off + Z.min (zlen buf - off) nb)) by mlia. cbn [bind].
      unfold slice. replace ((0 <=? off) && (off <=? off + Z.min (zlen buf - off) nb) && (off + Z.min (zlen buf - off) nb <=? zlen buf)) with true by lia. cbn [bind].
      eexists _, _. split; [reflexivity|]. split; [lia|]. cbn [deliveries].
      replace (off + Z.min (zlen buf - off) nb - off) with (Z.min (zlen buf - off) nb) by lia.
      assert (L : Z.of_nat (length (skipn (Z.to_nat off) buf)) = zlen buf - off) by (unfold zlen in *; rewrite skipn_length; lia).
      f_equal.
      - destruct (Z.le_gt_cases nb (zlen buf - off)) as [A|A]; [f_equal; lia|]. rewrite !firstn_all2 by lia. reflexivity.
      - f_equal. rewrite ReaderP.skipn_skipn'. destruct (Z.le_gt_cases nb (zlen buf - off)) as [A|A]; [f_equal; lia|].
        unfold zlen in *. rewrite !skipn_all2 by lia. reflexivity. }
    destruct E as (out & off' & E1 & E2 & E3). destruct (IH off' Hb E2 F') as (outs & R & ->).
    exists (out :: deliveries (skipn (Z.to_nat off') buf) calls). split; [econstructor; eassumption|exact E3].
Qed.

Lemma reads_det : forall m buf off calls outs outs', reads m buf off calls outs -> reads m buf off calls outs' -> outs = outs'.
Proof.
  intros m buf off calls outs outs' H. revert outs'. induction H as [|off null nb out off' calls outs E R IH]; intros outs' H'; inversion H'; subst; [reflexivity|].
  match goal with A : opj_stream_read _ _ _ _ _ = Ret (?o, ?f) |- _ => rewrite E in A; injection A as <- <- end. f_equal. auto.
Qed.

Lemma deliveries_prefix : forall calls rest, exists tail, rest = concat (deliveries rest calls) ++ tail.
Proof.
  induction calls as [|[[|] nb] calls IH]; intros rest; cbn [deliveries concat].
  - exists rest. reflexivity.
  - exact (IH rest).
  - destruct (IH (skipn (Z.to_nat nb) rest)) as (tail & E). exists tail. rewrite <- app_assoc, <- E, firstn_skipn. reflexivity.
Qed.

Lemma stream_reads : forall m buf calls, zlen buf < 2 ^ 63 -> Forall (fun c => 0 <= snd c) calls ->
  exists outs, reads m buf 0 calls outs /\ outs = deliveries buf calls /\ exists tail, buf = concat outs ++ tail.
Proof.
  intros m buf calls Hb F. pose proof (zlen_nonneg _ buf). destruct (reads_from m buf calls 0 Hb ltac:(lia) F) as (outs & R & E). exists outs.
  split; [exact R|]. cbn [Z.to_nat skipn] in E. split; [exact E|]. subst. apply deliveries_prefix.
Qed.

(** ** C58: parameter code enumerations *)
Definition key (e : wgrib2_entry) : list byte := normalize_name (w_name e).

Lemma assoc_none_in V (k : Z) (l : list (Z * V)) : assoc Z.eqb k l = None <-> ~ In k (map fst l).
Proof.
  induction l as [|[k' v] l IH]; cbn [assoc map fst In]; [tauto|]. destruct (k =? k') eqn:E.
  - split; [discriminate|]. intros N. exfalso. apply N. left. lia.
  - rewrite IH. split; [intros N [H|H]; [lia|tauto]|tauto].
Qed.
Lemma assoc_nodup V (k : Z) (v : V) (l : list (Z * V)) : NoDup (map fst l) -> In (k, v) l -> assoc Z.eqb k l = Some v.
Proof.
  induction l as [|[k' v'] l IH]; intros N I; [destruct I|]. cbn [map fst] in N. inversion N as [|? ? Nx N']. subst. cbn [assoc].
  destruct I as [I|I].
  - injection I as -> ->. rewrite Z.eqb_refl. reflexivity.
  - destruct (k =? k') eqn:E; [|auto]. exfalso. apply Nx. apply Z.eqb_eq in E. subst k'. apply (in_map fst) in I. exact I.
Qed.
Lemma assoc_name_none V (k : list byte) (l : list (list byte * V)) : assoc name_eqb k l = None <-> ~ In k (map fst l).
Proof.
  induction l as [|[k' v] l IH]; cbn [assoc map fst In]; [tauto|]. unfold name_eqb at 1. destruct (bytes_dec k k') as [E|E].
  - split; [discriminate|]. intros N. exfalso. apply N. left. congruence.
  - rewrite IH. split; [intros N [H|H]; [congruence|tauto]|tauto].
Qed.

Lemma remap_other : forall codes table r id, ~ In id (map entry_id codes) -> assoc Z.eqb id (remap_loop codes table r) = assoc Z.eqb id r.
Proof.
  induction codes as [|e codes IH]; intros table r id N; cbn [remap_loop]; [reflexivity|]. cbn [map In] in N.
  destruct (assoc name_eqb _ table) as [f|].
  - rewrite IH by tauto. cbn [assoc]. replace (id =? entry_id e) with false by lia. reflexivity.
  - apply IH. tauto.
Qed.

Lemma remap_spec : forall codes table r, NoDup (map entry_id codes) -> (forall e, In e codes -> assoc Z.eqb (entry_id e) r = None) ->
  forall pre e post, codes = pre ++ e :: post ->
  (assoc Z.eqb (entry_id e) (remap_loop codes table r) = None <-> ~ In (key e) (map fst table) /\ ~ In (key e) (map key pre)).
Proof.
  induction codes as [|x codes IH]; intros table r N Hr pre e post E; [destruct pre; discriminate|].
  cbn [map] in N. inversion N as [|? ? Nx N']. subst. cbn [remap_loop]. destruct pre as [|y pre]; cbn [app] in E; injection E as -> ->.
  - destruct (assoc name_eqb _ table) as [f|] eqn:A.
    + rewrite remap_other by exact Nx. cbn [assoc]. rewrite Z.eqb_refl. split; [discriminate|]. intros [H _]. apply assoc_name_none in H. unfold key in H. congruence.
    + rewrite remap_other by exact Nx. rewrite Hr by (left; reflexivity). apply assoc_name_none in A. cbn [map In]. tauto.
  - cbn [map In]. destruct (assoc name_eqb _ table) as [f|] eqn:A.
    + rewrite (IH table _ N') with (pre := pre) (post := post); [| |reflexivity].
      * assert (In (key y) (map fst table)).
        { destruct (in_dec bytes_dec (key y) (map fst table)) as [H|H]; [exact H|]. apply assoc_name_none in H. unfold key in H. congruence. }
        split; [intros [H1 H2]; split; [exact H1|intros [H3|H3]; [congruence|tauto]]|tauto].
      * intros e' I'. cbn [assoc]. destruct (entry_id e' =? entry_id y) eqn:Ee; [|apply Hr; right; exact I'].
        exfalso. apply Nx. apply Z.eqb_eq in Ee. rewrite <- Ee. apply in_map. exact I'.
    + rewrite (IH _ r N') with (pre := pre) (post := post); [| |reflexivity].
      * cbn [map fst In]. fold (key y). tauto.
      * intros e' I'. apply Hr. right. exact I'.
Qed.

Lemma nodup_filter A (P : A -> bool) (f : A -> list byte) : forall l,
  (forall pre e post, l = pre ++ e :: post -> P e = true -> ~ In (f e) (map f pre)) -> NoDup (map f (filter P l)).
Proof.
  induction l as [|x l IH] using rev_ind; intros H; [constructor|]. rewrite filter_app, map_app. cbn [filter]. destruct (P x) eqn:E.
  - cbn [map]. assert (Nx : ~ In (f x) (map f l)) by (apply (H l x []); [reflexivity|exact E]).
    assert (Nx' : ~ In (f x) (map f (filter P l))).
    { intros I. apply Nx. apply in_map_iff in I. destruct I as (y & Ey & Iy). apply filter_In in Iy. apply in_map_iff. exists y. tauto. }
    assert (NDl : NoDup (map f (filter P l))).
    { apply IH. intros pre e post -> Pe. apply (H pre e (post ++ [x])); [now rewrite <- app_assoc|exact Pe]. }
    apply (NoDup_Add (a := f x) (l := map f (filter P l))); [|split; [exact NDl|exact Nx']].
    pose proof (Add_app (f x) (map f (filter P l)) []) as Ad. rewrite app_nil_r in Ad. exact Ad.
  - cbn [map]. rewrite app_nil_r. apply IH. intros pre e post -> Pe. apply (H pre e (post ++ [x])); [now rewrite <- app_assoc|exact Pe].
Qed.

Lemma first_named : forall codes k, In k (map key codes) -> exists pre e post, codes = pre ++ e :: post /\ key e = k /\ ~ In k (map key pre).
Proof.
  induction codes as [|x codes IH]; intros k I; [destruct I|]. destruct (bytes_dec (key x) k) as [E|E].
  - exists [], x, codes. cbn. auto.
  - destruct I as [I|I]; [congruence|]. destruct (IH k I) as (pre & e & post & -> & K & N). exists (x :: pre), e, post. cbn. tauto.
Qed.

Lemma variants_in codes e : In e codes -> assoc Z.eqb (entry_id e) (remapper_of codes) = None -> In (key e, entry_id e) (enum_variants codes).
Proof.
  intros I A. unfold enum_variants. apply in_map_iff. exists e. split; [reflexivity|]. apply filter_In. split; [exact I|]. now rewrite A.
Qed.

Lemma enum_ok : forall codes, NoDup (map entry_id codes) ->
  NoDup (map fst (enum_variants codes)) /\ NoDup (map snd (enum_variants codes)) /\
  (forall name, In name (map fst (enum_variants codes)) <-> exists e, In e codes /\ name = normalize_name (w_name e)) /\
  (forall name d, In (name, d) (enum_variants codes) -> enum_try_from codes d = Some name).
Proof.
  intros codes N.
  assert (Spec : forall pre e post, codes = pre ++ e :: post -> (assoc Z.eqb (entry_id e) (remapper_of codes) = None <-> ~ In (key e) (map key pre))).
  { intros pre e post E. unfold remapper_of. rewrite (remap_spec codes [] [] N) with (pre := pre) (post := post); [cbn; tauto|reflexivity|exact E]. }
  assert (M1 : map fst (enum_variants codes) = map key (filter (fun e => match assoc Z.eqb (entry_id e) (remapper_of codes) with None => true | Some _ => false end) codes)).
  { unfold enum_variants. rewrite map_map. reflexivity. }
  assert (M2 : map snd (enum_variants codes) = map entry_id (filter (fun e => match assoc Z.eqb (entry_id e) (remapper_of codes) with None => true | Some _ => false end) codes)).
  { unfold enum_variants. rewrite map_map. reflexivity. }
  split; [|split; [|split]].
  - rewrite M1. apply nodup_filter. intros pre e post E P. apply (Spec pre e post E). destruct (assoc _ _ _); [discriminate|reflexivity].
  - rewrite M2. clear - N. induction codes as [|x l IH]; [constructor|]. set (P := fun e => _). assert (G : forall l', NoDup (map entry_id l') -> NoDup (map entry_id (filter P l'))); [|exact (G _ N)].
    clear. intros l'. induction l' as [|y l' IH]; intros N; [constructor|]. cbn [map] in N. inversion N as [|? ? Ny N']. subst. cbn [filter].
    destruct (P y); [|auto]. cbn [map]. constructor; [|auto]. intros I. apply Ny. apply in_map_iff in I. destruct I as (z & Ez & Iz). apply filter_In in Iz. apply in_map_iff. exists z. tauto.
  - intros name. split.
    + rewrite M1. intros I. apply in_map_iff in I. destruct I as (e & <- & I). apply filter_In in I. exists e. split; [tauto|reflexivity].
    + intros (e & I & ->). destruct (first_named codes (key e) (in_map key _ _ I)) as (pre & e' & post & E & K & Nk).
      apply in_map_iff. exists (key e', entry_id e'). split; [exact K|]. apply variants_in; [rewrite E; apply in_elt|].
      apply (Spec pre e' post E). rewrite K. exact Nk.
  - intros name d I. unfold enum_variants in I. apply in_map_iff in I. destruct I as (e & Ee & I). injection Ee as <- <-. apply filter_In in I.
    unfold enum_try_from. apply assoc_nodup; [rewrite map_map; cbn; exact N|]. apply in_map_iff. exists e. tauto.
Qed.

Lemma try_from_ok : forall codes, NoDup (map entry_id codes) -> forall value,
  (forall e, In e codes -> entry_id e = value -> enum_try_from codes value = Some (normalize_name (w_name e))) /\
  ((forall e, In e codes -> entry_id e <> value) -> enum_try_from codes value = None).
Proof.
  intros codes N value. unfold enum_try_from. split.
  - intros e I <-. apply assoc_nodup; [rewrite map_map; exact N|]. apply in_map_iff. exists e. tauto.
  - intros H. apply assoc_none_in. rewrite map_map. intros I. apply in_map_iff in I. destruct I as (e & E & I). exact (H e I E).
Qed.

Lemma split_word w : word w -> split_on 58 w = [w].
Proof.
  induction w as [|b w IH]; intros N; [reflexivity|]. cbn [split_on]. unfold word in *. cbn [In] in N.
  replace (bz b =? 58) with false. { rewrite IH by tauto. reflexivity. }
  destruct (bz b =? 58) eqn:E; [|reflexivity]. exfalso. apply N. left. apply Z.eqb_eq in E. rewrite <- (zb_bz b), E. reflexivity.
Qed.
Lemma split_cons w l : word w -> split_on 58 (w ++ [x3a] ++ l) = w :: split_on 58 l.
Proof.
  induction w as [|b w IH]; intros N; [reflexivity|]. cbn [app split_on]. unfold word in *. cbn [In] in N.
  replace (bz b =? 58) with false. { change (w ++ x3a :: l) with (w ++ [x3a] ++ l). rewrite IH by tauto. reflexivity. }
  destruct (bz b =? 58) eqn:E; [|reflexivity]. exfalso. apply N. left. apply Z.eqb_eq in E. rewrite <- (zb_bz b), E. reflexivity.
Qed.
Lemma digits_word w : digits w -> word w.
Proof. intros [_ F] I. rewrite Forall_forall in F. specialize (F _ I). cbn in F. lia. Qed.
Lemma parse_number max w : 0 <= max -> number max w -> parse_uint max w = Some (decimal w).
Proof. intros Hm [D L]. rewrite parse_uint_digits by assumption. replace (decimal w <=? max) with true by lia. reflexivity. Qed.

Lemma entry_parsed : forall a x v1 v2 ce lv c n name desc unit,
  number 255 a -> word x -> number 255 v1 -> number 255 v2 -> number 65535 ce -> number 255 lv -> number 255 c -> number 255 n ->
  word name -> word desc ->
  parse_entry (join [a; x; v1; v2; ce; lv; c; n; name; desc; unit]) = Some (MkEntry (decimal a) (decimal c) (decimal n) name).
Proof.
  intros a x v1 v2 ce lv c n name desc unit Ha Hx H1 H2 H3 H4 Hc Hn W W'. unfold parse_entry. cbn [join].
  rewrite (split_cons a), (split_cons x), (split_cons v1), (split_cons v2), (split_cons ce), (split_cons lv), (split_cons c), (split_cons n), (split_cons name), (split_cons desc)
    by (assumption || (apply digits_word; match goal with H : number _ ?w |- digits ?w => exact (proj1 H) end)).
  assert (exists u us, split_on 58 unit = u :: us) as (u & us & ->).
  { destruct unit as [|b unit]; [cbn; eauto|]. cbn [split_on]. destruct (bz b =? 58); [eauto|]. destruct (split_on 58 unit); eauto. }
  rewrite (parse_number 255 a), (parse_number 255 v1), (parse_number 255 v2), (parse_number 65535 ce), (parse_number 255 lv), (parse_number 255 c), (parse_number 255 n) by (lia || assumption).
  reflexivity.
Qed.

Lemma code_injective : forall e e', 
  (forall x, In x [w_discipline e; w_category e; w_number e; w_discipline e'; w_category e'; w_number e'] -> 0 <= x < 256) ->
  entry_id e = entry_id e' -> w_discipline e = w_discipline e' /\ w_category e = w_category e' /\ w_number e = w_number e'.
Proof.
  intros [d c n nm] [d' c' n' nm'] H E. unfold entry_id in E. cbn [w_discipline w_category w_number] in *.
  pose proof (H d) as A. pose proof (H c) as B. pose proof (H n) as C. pose proof (H d') as A'. pose proof (H c') as B'. pose proof (H n') as C'. cbn [In] in *.
  specialize (A ltac:(tauto)). specialize (B ltac:(tauto)). specialize (C ltac:(tauto)). specialize (A' ltac:(tauto)). specialize (B' ltac:(tauto)). specialize (C' ltac:(tauto)).
  clear H. change (2 ^ 16) with 65536 in E. change (2 ^ 8) with 256 in E. lia.
Qed.

Lemma cli_bad_index : forall m rfuel s g, grib2_read m rfuel s = Ret (Ok g) -> 0 < g_len g ->
  forall index, (forall a b, ~ index_string index a b) ->
  forall lm pl c gfuel fuel fmt, cli_decode m lm pl c rfuel gfuel fuel fmt s index = Ret (Err BadIndex).
Proof.
  intros m rfuel s g Hr Hg index Hi lm pl c gfuel fuel fmt. unfold cli_decode, cli_grib. rewrite Hr. cbn [bind]. unfold g_is_empty.
  replace (g_len g =? 0) with false by lia. cbn [bind]. rewrite (index_refused index Hi). reflexivity.
Qed.
Lemma cli_unreadable : forall m rfuel s r, grib2_read m rfuel s = Ret r -> (match r with Ok g => g_len g = 0 | Err _ => True end) ->
  forall index lm pl c gfuel fuel fmt, cli_decode m lm pl c rfuel gfuel fuel fmt s index =
    Ret (Err (match r with Ok _ => EmptyData | Err e => Grib e end)).
Proof.
  intros m rfuel s r Hr H index lm pl c gfuel fuel fmt. unfold cli_decode, cli_grib. rewrite Hr. cbn [bind]. destruct r as [g|e]; [|reflexivity].
  unfold g_is_empty. rewrite H. reflexivity.
Qed.
