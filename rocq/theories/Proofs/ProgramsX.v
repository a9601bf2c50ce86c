(** The example programs. *)
From Coq Require Import Lia ZifyBool ZifyNat Strings.String Floats.SpecFloat.
From Verif Require Import Model.Base Model.Errors Model.F32 Model.F64 Model.Sections Model.Reader Model.Parser Model.Context Model.Product Model.Grid Model.Gaussian Model.Proj Model.Decoder Model.Tools Model.Text Model.Tables Model.Cli Model.Programs.
From Verif Require Import Spec.ReaderS Spec.ParserS Spec.ContextS Spec.FieldsS Spec.ProductS Spec.Layout Spec.DecodeS Spec.ToolsS Spec.TablesS Spec.SessionS.
From Verif Require Import Proofs.BaseLemmas Proofs.ReaderP Proofs.KeepP Proofs.ContextP Proofs.ContextX Proofs.ViewX Proofs.ToolsP Proofs.ToolsX Proofs.TextP Proofs.SessionX Proofs.CliP Proofs.CliX Proofs.RunX.
From Verif Require Proofs.ProductX Proofs.FieldsX.
From Verif Require Import Spec.CliS Spec.ProgramsS.
Ltac Zify.zify_post_hook ::= Z.div_mod_to_equations.

(** ** find_layers *)

Lemma hour_eq f hours : (match fc_unit f with Name Hour => fc_value f =? hours | _ => false end) = true <-> f = from_numbers 1 hours.
Proof.
  unfold from_numbers. cbn [unit_of_code]. destruct f as [u x]. cbn [fc_unit fc_value]. split.
  - intros H. destruct u as [[]|]; try discriminate. apply Z.eqb_eq in H. subst. reflexivity.
  - intros H. injection H as -> ->. apply Z.eqb_refl.
Qed.

Section Find.
  Context (e : printer) (Ce : compiles e) (v : view) (disc total : Z) (i p3 p p5 : list byte) (n k : Z) (G : good v disc total i p3 p p5 n k).

  Lemma find_layer_eq m hours : find_layer e m hours v =
    let! ft := forecast_time p in
    match ft with
    | Some f => if match fc_unit f with Name Hour => fc_value f =? hours | _ => false end then dump_entry e m v else Ret []
    | None => Ret []
    end.
  Proof.
    unfold find_layer. rewrite (g_prod _ _ _ _ _ _ _ _ _ G). cbn [bind]. destruct (forecast_time p) as [[f|]| |]; cbn [bind]; try reflexivity.
    destruct (fc_unit f) as [[]|]; reflexivity.
  Qed.
  Lemma found_iff m hours t : found e m hours v t <-> find_layer e m hours v = Ret t.
  Proof.
    rewrite find_layer_eq. unfold found. split.
    - intros (p' & o & E & F & A & B). rewrite (g_prod _ _ _ _ _ _ _ _ _ G) in E. injection E as <-. rewrite F. cbn [bind]. destruct o as [f|].
      + destruct (match fc_unit f with Name Hour => fc_value f =? hours | _ => false end) eqn:H.
        * apply hour_eq in H. subst f. apply (dump_iff e Ce v disc total i p3 p p5 n k G). apply A. reflexivity.
        * rewrite B; [reflexivity|]. intros X. injection X as X. apply hour_eq in X. congruence.
      + rewrite B; [reflexivity|discriminate].
    - intros H. exists p. destruct (forecast_time p) as [o| |]; cbn [bind] in H; try discriminate. exists o. split; [apply (g_prod _ _ _ _ _ _ _ _ _ G)|]. split; [reflexivity|].
      destruct o as [f|].
      + destruct (match fc_unit f with Name Hour => fc_value f =? hours | _ => false end) eqn:E.
        * apply hour_eq in E. subst f. split; [intros _; apply (dump_iff e Ce v disc total i p3 p p5 n k G); exact H|congruence].
        * split; [intros X; injection X as X; apply hour_eq in X; congruence|]. intros _. congruence.
      + split; [discriminate|]. intros _. congruence.
  Qed.
  Lemma find_panic m hours : quiet (find_layer e m hours v) /\
    (find_layer e m hours v = Panic <-> forecast_time p = Panic \/ (forecast_time p = Ret (Some (from_numbers 1 hours)) /\ fixed_surfaces m p = Panic)).
  Proof.
    rewrite find_layer_eq. pose proof (q_forecast p) as Q1. destruct (dump_panic e Ce v disc total i p3 p p5 n k G m) as (Q & P). unfold quiet in *.
    destruct (forecast_time p) as [[f|]| |]; cbn [bind].
    - destruct (match fc_unit f with Name Hour => fc_value f =? hours | _ => false end) eqn:E.
      + apply hour_eq in E. subst f. split; [exact Q|]. rewrite P. split; [intros [H|H]; [discriminate|right; auto]|intros [H|(_ & H)]; [discriminate|right; exact H]].
      + split; [discriminate|]. split; [discriminate|]. intros [H|(H & _)]; [discriminate|]. injection H as H. apply hour_eq in H. congruence.
    - split; [discriminate|]. split; [discriminate|]. intros [H|(H & _)]; discriminate.
    - split; [discriminate|]. split; auto.
    - congruence.
  Qed.
End Find.

Lemma found_all : forall m fuel s g, grib2_read m fuel s = Ret (Ok g) -> zlen (data s) < 2 ^ 63 -> 0 <= pos s <= zlen (data s) ->
  exists ms us vs, Forall wf_message ms /\ g_sections g = flat_map message_sections ms /\ submessages_of_all 0 ms us /\
    Forall2 (shows (g_sections g)) us vs /\ zlen vs = g_len g /\
    forall e hours, compiles e ->
    (forall t, find_layers e m fuel s hours = Ret (Ok t) <-> exists ls, Forall2 (found e m hours) vs ls /\ t = concat ls) /\
    (find_layers e m fuel s hours = Panic <->
       exists v p, In v vs /\ v_prod_def v = Ret p /\
         (forecast_time p = Panic \/ (forecast_time p = Ret (Some (from_numbers 1 hours)) /\ fixed_surfaces m p = Panic))) /\
    find_layers e m fuel s hours <> Diverge.
Proof.
  intros m fuel s g E Hl Hp. destruct (file_good m fuel s g E Hl Hp) as (ms & us & vs & W & Es & U & S & L & M & Gd & _).
  exists ms, us, vs. repeat (split; [assumption|]). intros e hours Ce. unfold find_layers. rewrite E. cbn [bind]. rewrite (all_of_map _ g vs _ M).
  assert (LI : forall v, In v vs -> forall line, found e m hours v line <-> find_layer e m hours v = Ret line).
  { intros v Hv line. destruct (Gd v Hv) as (disc & total & i & p3 & p & p5 & n & k & G). eapply found_iff; eassumption. }
  assert (QI : forall v, In v vs -> quiet (find_layer e m hours v)).
  { intros v Hv. destruct (Gd v Hv) as (disc & total & i & p3 & p & p5 & n & k & G). eapply find_panic; eassumption. }
  destruct (mapM_panic _ _ (find_layer e m hours) vs QI) as (Q & P). split; [|split].
  - intros t. rewrite bind_ret_inv. split.
    + intros (ls & A & B). injection B as <-. exists ls. split; [|reflexivity]. apply mapM_ret in A. apply (forall2_iff _ _ _ _ vs ls LI). exact A.
    + intros (ls & A & ->). exists ls. split; [|reflexivity]. apply mapM_ret. apply (forall2_iff _ _ _ _ vs ls LI). exact A.
  - rewrite bind_panic, P. split.
    + intros [(v & Hv & H)|(a & _ & H)]; [|discriminate]. destruct (Gd v Hv) as (disc & total & i & p3 & p & p5 & n & k & G). exists v, p. split; [exact Hv|]. split; [eapply g_prod; exact G|].
      eapply find_panic; eassumption.
    + intros (v & q & Hv & Eq & H). left. exists v. split; [exact Hv|]. destruct (Gd v Hv) as (disc & total & i & p3 & p & p5 & n & k & G).
      rewrite (g_prod _ _ _ _ _ _ _ _ _ G) in Eq. injection Eq as <-. eapply find_panic; eassumption.
  - apply q_bind; [exact Q|]. intros. apply q_ret.
Qed.

(** ** list_layers *)

Lemma suffix_iff (e : printer) s t : surface_suffix s t <-> t = match surface_unit s with Some u => str " [" ++ u ++ str "]" | None => [] end.
Proof.
  pose proof (surface_iff e s (pr_f64 e (surface_value s) ++ t)) as H. unfold shows_surface, format_surface in H. unfold surface_suffix. split.
  - intros K. apply app_inv_head with (pr_f64 e (surface_value s)). apply H. destruct K as [(u & codes & I & J & ->)|(N & ->)].
    + left. exists u, codes. auto. + right. rewrite app_nil_r. auto.
  - intros ->. destruct (proj2 H eq_refl) as [(u & codes & I & J & K)|(N & K)].
    + apply app_inv_head in K. left. exists u, codes. auto.
    + right. split; [exact N|]. rewrite <- app_nil_r in K. apply app_inv_head in K. exact K.
Qed.

Section ListLayers.
  Context (e : printer) (Ce : compiles e) (v : view) (disc total : Z) (i p3 p p5 : list byte) (n k : Z) (G : good v disc total i p3 p p5 n k).

  Lemma layer_iff m t : layer e m v t <-> list_layer e m v = Ret t.
  Proof.
    unfold layer, list_layer. rewrite (g_indicator _ _ _ _ _ _ _ _ _ G), (g_prod _ _ _ _ _ _ _ _ _ G). cbn [bind]. split.
    - intros (p' & d & c & nu & f & a & b & E & D & C & N & F & S & pa & pa' & ti & va & un & K1 & K2 & K3 & K4 & K5 & ->).
      assert (p' = p) by congruence. assert (d = disc) by congruence. subst p' d. clear E D.
      rewrite C, N, F, S. cbn [bind unwrap]. apply (looked_iff e Ce) in K1; [|apply (number_nonneg _ _ N)]. apply left_iff in K2. apply time_sound in K3. apply right_iff in K4.
      apply (suffix_iff e) in K5. subst. reflexivity.
    - intros H.
      destruct (parameter_category p) as [[c|]| |] eqn:C; cbn [bind unwrap] in H; try discriminate.
      destruct (parameter_number p) as [[nu|]| |] eqn:N; cbn [bind unwrap] in H; try discriminate.
      destruct (forecast_time p) as [[f|]| |] eqn:F; cbn [bind unwrap] in H; try discriminate.
      destruct (fixed_surfaces m p) as [[[a b]|]| |] eqn:S; cbn [bind unwrap] in H; try discriminate.
      match type of H with Ret ?x = _ => assert (Et : t = x) by congruence end. subst t. clear H.
      exists p, disc, c, nu, f, a, b. repeat (split; [reflexivity|assumption|idtac] || (split; [first [reflexivity|assumption]|])).
      destruct (forecast_numbers p f F) as (u & x & -> & Hu & Hx).
      eexists _, _, _, _, _. split; [apply (looked_iff e Ce); [apply (number_nonneg _ _ N)|reflexivity]|]. split; [apply left_iff; reflexivity|].
      split; [apply time_complete; assumption|]. split; [apply right_iff; reflexivity|]. split; [apply (suffix_iff e); reflexivity|]. reflexivity.
  Qed.
  Lemma layer_panic m : quiet (list_layer e m v) /\
    (list_layer e m v = Panic <-> forall t, ~ layer e m v t).
  Proof.
    assert (Q : quiet (list_layer e m v)).
    { unfold list_layer. rewrite (g_indicator _ _ _ _ _ _ _ _ _ G), (g_prod _ _ _ _ _ _ _ _ _ G). cbn [bind]. destruct (category_some v disc total i p3 p p5 n k G) as (c & ->), (number_some v disc total i p3 p p5 n k G) as (o & ->).
      cbn [bind]. destruct c, o; cbn [unwrap bind]; try discriminate. pose proof (q_forecast p) as Q1. pose proof (q_surfaces m p) as Q2. unfold quiet in *.
      destruct (forecast_time p) as [[f|]| |]; cbn [unwrap bind]; try congruence. destruct (fixed_surfaces m p) as [[[a b]|]| |]; cbn [unwrap bind]; congruence. }
    split; [exact Q|]. split.
    - intros H t K. apply layer_iff in K. congruence.
    - intros H. destruct (list_layer e m v) as [t| |] eqn:E; [|reflexivity|elim (Q eq_refl)]. elim (H t). apply layer_iff. exact E.
  Qed.
  (** Which submessages have no line. *)
  Lemma no_layer_iff m t : prod_template p = t -> t <> 44 ->
    ((forall line, ~ layer e m v line) <->
     ~ (In t prod_templates /\ exists a b, unit_octet t = Some a /\ surface_octet t = Some b /\ reaches p (a + 4) /\ reaches p (b + 11))).
  Proof.
    intros Ht N4. assert (R9 : reaches p 9) by (unfold reaches; pose proof (G_l4 _ _ _ _ _ _ _ _ _ G); lia).
    pose proof (ProductX.parameter_octets p R9) as (P1 & P2). rewrite Ht in P1, P2.
    rewrite <- (proj2 (layer_panic m)). unfold list_layer. rewrite (g_indicator _ _ _ _ _ _ _ _ _ G), (g_prod _ _ _ _ _ _ _ _ _ G). cbn [bind].
    destruct (in_dec Z.eq_dec t prod_templates) as [I|I].
    - destruct (P1 I) as (-> & ->). pose proof (ProductX.forecast_octets p t R9 Ht I N4) as F. pose proof (ProductX.surface_octets m p t R9 Ht I) as S.
      assert (A10 : forall a, unit_octet t = Some a -> a + 4 <= zlen p + 5 -> octet_if p 10 <> None /\ octet_if p 11 <> None).
      { intros a U L. assert (18 <= a).
        { revert U. unfold unit_octet. repeat (match goal with |- (if ?b then _ else _) = _ -> _ => destruct b; [intros U; injection U as <-; lia|] end).
          intros U. destruct (inserted t) as [x|] eqn:Ei; cbn [option_map] in U; [|discriminate]. assert (a = 18 + x) by congruence. subst a.
          assert (0 <= x); [|lia]. revert Ei. unfold inserted. repeat (match goal with |- (if ?b then _ else _) = _ -> _ => destruct b; [intros Ei; injection Ei as <-; lia|] end). discriminate. }
        unfold octet_if. replace (10 <=? zlen p + 5) with true by lia. replace (11 <=? zlen p + 5) with true by lia. split; discriminate. }
      assert (Q : forall (o : option Z), quiet (unwrap o)) by (intros []; discriminate).
      destruct (unit_octet t) as [a|].
      + destruct (a + 4 <=? zlen p + 5) eqn:L.
        * destruct (A10 a eq_refl (proj1 (Z.leb_le _ _) L)) as (X & Y). destruct (octet_if p 10); [|congruence]. destruct (octet_if p 11); [|congruence]. cbn [bind unwrap]. rewrite F. cbn [bind unwrap].
          destruct (surface_octet t) as [b|].
          -- destruct (b + 11 <=? zlen p + 5) eqn:M; rewrite S; cbn [bind unwrap].
             ++ split; [discriminate|]. intros K. elim K. split; [exact I|]. exists a, b. unfold reaches. repeat split; lia.
             ++ split; [|reflexivity]. intros _ (_ & a' & b' & _ & Y' & _ & Z'). injection Y' as <-. unfold reaches in Z'. lia.
          -- rewrite S. cbn [bind unwrap]. split; [|reflexivity]. intros _ (_ & a' & b' & _ & Y' & _). discriminate.
        * rewrite F. split.
          -- intros _ (_ & a' & b' & Y' & _ & Z' & _). injection Y' as <-. unfold reaches in Z'. lia.
          -- intros _. destruct (octet_if p 10), (octet_if p 11); reflexivity.
      + rewrite F. split.
        * intros _ (_ & a' & b' & Y' & _). discriminate.
        * intros _. destruct (octet_if p 10), (octet_if p 11); reflexivity.
    - destruct (P2 I) as (-> & _). cbn [bind unwrap]. split; [intros _ (X & _); contradiction|reflexivity].
  Qed.
End ListLayers.

Lemma layers_all : forall m fuel s g, grib2_read m fuel s = Ret (Ok g) -> zlen (data s) < 2 ^ 63 -> 0 <= pos s <= zlen (data s) ->
  exists ms us vs, Forall wf_message ms /\ g_sections g = flat_map message_sections ms /\ submessages_of_all 0 ms us /\
    Forall2 (shows (g_sections g)) us vs /\ zlen vs = g_len g /\
    forall e, compiles e ->
    (forall t, list_layers e m fuel s = Ret (Ok t) <-> exists ls, Forall2 (layer e m) vs ls /\ t = concat ls) /\
    (list_layers e m fuel s = Panic <-> exists v, In v vs /\ forall line, ~ layer e m v line) /\
    list_layers e m fuel s <> Diverge.
Proof.
  intros m fuel s g E Hl Hp. destruct (file_good m fuel s g E Hl Hp) as (ms & us & vs & W & Es & U & S & L & M & Gd & _).
  exists ms, us, vs. repeat (split; [assumption|]). intros e Ce. unfold list_layers. rewrite E. cbn [bind]. rewrite (all_of_map _ g vs _ M).
  assert (LI : forall v, In v vs -> forall line, layer e m v line <-> list_layer e m v = Ret line).
  { intros v Hv line. destruct (Gd v Hv) as (disc & total & i & p3 & p & p5 & n & k & G). eapply layer_iff; eassumption. }
  assert (QI : forall v, In v vs -> quiet (list_layer e m v)).
  { intros v Hv. destruct (Gd v Hv) as (disc & total & i & p3 & p & p5 & n & k & G). eapply layer_panic; eassumption. }
  destruct (mapM_panic _ _ (list_layer e m) vs QI) as (Q & P). split; [|split].
  - intros t. rewrite bind_ret_inv. split.
    + intros (ls & A & B). injection B as <-. exists ls. split; [|reflexivity]. apply mapM_ret in A. apply (forall2_iff _ _ _ _ vs ls LI). exact A.
    + intros (ls & A & ->). exists ls. split; [|reflexivity]. apply mapM_ret. apply (forall2_iff _ _ _ _ vs ls LI). exact A.
  - rewrite bind_panic, P. split.
    + intros [(v & Hv & H)|(a & _ & H)]; [|discriminate]. destruct (Gd v Hv) as (disc & total & i & p3 & p & p5 & n & k & G). exists v. split; [exact Hv|].
      apply (layer_panic e Ce v disc total i p3 p p5 n k G m). exact H.
    + intros (v & Hv & H). left. exists v. split; [exact Hv|]. destruct (Gd v Hv) as (disc & total & i & p3 & p & p5 & n & k & G).
      apply (layer_panic e Ce v disc total i p3 p p5 n k G m). exact H.
  - apply q_bind; [exact Q|]. intros. apply q_ret.
Qed.
Lemma no_layer : forall m fuel s g, grib2_read m fuel s = Ret (Ok g) -> zlen (data s) < 2 ^ 63 -> 0 <= pos s <= zlen (data s) ->
  forall w v, In w (g_subs g) -> make_view g w = Some v ->
  exists p, v_prod_def v = Ret p /\
  forall e t, compiles e -> prod_template p = t -> t <> 44 ->
    ((forall line, ~ layer e m v line) <->
     ~ (In t prod_templates /\ exists a b, unit_octet t = Some a /\ surface_octet t = Some b /\ reaches p (a + 4) /\ reaches p (b + 11))).
Proof.
  intros m fuel s g E Hl Hp w v Hw Hv. destruct (file_good m fuel s g E Hl Hp) as (ms & us & vs & _ & _ & _ & _ & _ & M & Gd & _).
  destruct (Forall2_in_l _ _ _ _ _ w M Hw) as (v1 & I1 & E1). assert (v1 = v) by congruence. subst v1.
  destruct (Gd v I1) as (disc & total & i & p3 & p & p5 & n & k & G). exists p. split; [eapply g_prod; exact G|].
  intros e t Ce Ht N. eapply no_layer_iff; eassumption.
Qed.

(** ** decode_layer *)

Lemma zip_loop_run A B (f : A * B -> list byte) : forall (a : iter A) la ea, Run a la ea -> ea = End -> forall (b : iter B) lb eb fuel, Run b lb eb -> eb = End ->
  (length la < fuel)%nat -> zip_loop fuel a b f = Ret (concat (map f (combine la lb))).
Proof.
  intros a la ea Ra. induction Ra as [a a' Na|a Na|a a' x la ea Na Ra IH]; intros Ee b lb eb fuel Rb Eb Hf; try discriminate; (destruct fuel as [|fuel]; [cbn [length] in Hf; lia|]); cbn [zip_loop]; rewrite Na; cbn [bind].
  - reflexivity.
  - destruct Rb as [b b' Nb|b Nb|b b' y lb eb Nb Rb]; [|discriminate|]; rewrite Nb; cbn [bind].
    + reflexivity.
    + rewrite (IH Ee b' lb eb fuel Rb Eb) by (cbn [length] in Hf; lia). reflexivity.
Qed.

Lemma line_eq shortest l : concat (map (layer_line shortest) l) = concat (map (point_text shortest) l).
Proof. f_equal. apply map_ext. intros [[a b] c]. reflexivity. Qed.

Section Layer.
  Context (m : mode) (rfuel : nat) (s : src) (g : grib2) (Hr : grib2_read m rfuel s = Ret (Ok g)) (Hd : zlen (data s) < 2 ^ 63) (Hp : 0 <= pos s <= zlen (data s)).
  Context (Hg : g_len g < Z.of_nat rfuel).

  Lemma layer_missing : forall index, (forall w v, In w (g_subs g) -> make_view g w = Some v -> (u_mi v, u_si v) <> index) ->
    forall lm pl c gfuel fuel shortest, decode_layer m lm pl c rfuel gfuel fuel shortest s index = Ret (Err NoSuchIndex).
  Proof.
    intros index Hi lm pl c gfuel fuel shortest. unfold decode_layer. rewrite Hr. cbn [bind].
    destruct (views m rfuel s g Hr Hd ltac:(lia)) as (ms & us & vs & W & Es & U & Sh & V).
    pose proof (find_from g vs index rfuel 0 V) as F. cbn [skipn Z.of_nat] in F.
    rewrite F by (pose proof (count_subs g vs V); unfold g_len, zlen in *; lia). cbn [bind].
    match goal with |- context [find ?f vs] => destruct (find f vs) as [v|] eqn:E end; [|reflexivity]. apply find_some in E. destruct E as (I & E). exfalso.
    destruct (Forall2_in_r _ _ _ _ _ v V I) as (w & Iw & Ew). apply (Hi w v Iw Ew). destruct index as [x y]. cbn [fst snd] in E. f_equal; lia.
  Qed.

  Context (w : submessage Z) (v : view) (Hw : In w (g_subs g)) (Hv : make_view g w = Some v).
  Lemma layer_selected lm pl c gfuel fuel shortest :
    decode_layer m lm pl c rfuel gfuel fuel shortest s (u_mi v, u_si v) = decode_layer_view m lm pl c gfuel fuel shortest (g_src g) v.
  Proof.
    unfold decode_layer. rewrite Hr. cbn [bind].
    destruct (views m rfuel s g Hr Hd ltac:(lia)) as (ms & us & vs & W & Es & U & Sh & V).
    pose proof (find_from g vs (u_mi v, u_si v) rfuel 0 V) as F. cbn [skipn Z.of_nat fst snd] in F.
    rewrite F by (pose proof (count_subs g vs V); unfold g_len, zlen in *; lia). cbn [bind]. clear F.
    pose proof (proj1 (sub_indices ms 0 us U)) as ND. rewrite (shows_index _ _ _ Sh) in ND.
    destruct (Forall2_in_l _ _ _ _ _ w V Hw) as (v1 & I1 & E1). assert (v1 = v) by congruence. subst v1.
    match goal with |- context [find ?f vs] => destruct (find f vs) as [v'|] eqn:G end.
    - apply find_some in G. destruct G as [I' E']. replace v' with v; [reflexivity|].
      apply (NoDup_map_inj _ _ _ vs ND); [exact I1|exact I'|]. f_equal; lia.
    - exfalso. pose proof (find_none _ _ G v I1) as N. cbn in N. lia.
  Qed.

  Lemma layer_decoded : forall lm pl c gfuel fuel latlons,
    let p3 := octets (data s) (s_offset (snd (u_3 v)) + 5) (s_size (snd (u_3 v)) - 5) in
    sub_latlons m lm pl gfuel p3 = Ret latlons ->
    forall shortest, let run := decode_layer m lm pl c rfuel gfuel fuel shortest s (u_mi v, u_si v) in
    match latlons with
    | Err e => run = Ret (Err (Grib e))
    | Ok pts =>
        (forall e, decoding m c (data s) v (Err e) -> run = Ret (Err (Grib e))) /\
        (forall out, decoding m c (data s) v (Ok out) -> 0 < field p3 7 10 < Z.of_nat fuel ->
           exists ps, Run (points_iter m pts) ps End /\ zlen ps = field p3 7 10 /\ run = Ret (Ok (concat (map (point_text shortest) (combine ps out)))))
    end.
  Proof.
    intros lm pl c gfuel fuel latlons p3 L shortest. cbn zeta. rewrite layer_selected. unfold decode_layer_view.
    destruct (file_bodies m rfuel s g Hr Hd Hp w v Hw Hv) as (_ & _ & B3' & _). rewrite B3'. cbn [bind]. fold p3. rewrite L. cbn [bind].
    destruct latlons as [pts|e]; [|reflexivity].
    pose proof (decode_history m (data s) v (g_src g) (reader_data m rfuel s g Hr Hd ltac:(lia))) as DH. split.
    - intros e [H|(dec & H & D)]; rewrite H in DH; destruct DH as (s' & -> & _); cbn [bind]; [reflexivity|]. rewrite D. reflexivity.
    - intros out (dec & it & H & D & R) H0. rewrite H in DH. destruct DH as (s' & -> & _). cbn [bind]. rewrite D. cbn [bind].
      assert (Re : reaches p3 10).
      { destruct (file_views m rfuel s g Hr Hd Hp w v Hw Hv) as (_ & _ & (_ & H3 & N3) & _).
        destruct (body_by_num _ _ H3) as (_ & _ & B3'' & _). destruct (B3'' N3) as (E3 & S3). pose proof (FieldsX.header_body _ _ H3) as Hb3. rewrite E3 in Hb3.
        pose proof (proj1 H3) as H3p. unfold reaches, p3. rewrite zlen_octets by lia. lia. }
      destruct (latlons_total m lm pl gfuel p3 pts Re L (proj1 H0)) as (ps & Rp & Np). exists ps. split; [exact Rp|]. split; [exact Np|].
      rewrite (zip_loop_run _ _ _ _ ps End Rp eq_refl _ out End fuel R eq_refl) by (unfold zlen in Np; lia). cbn [bind]. rewrite line_eq. reflexivity.
  Qed.
End Layer.

(** ** check_decoding_of_files *)

Lemma collect_crash A (it : iter A) l e : Run it l e -> e = Crash -> forall fuel, (length l < fuel)%nat -> collect fuel it = Panic.
Proof.
  intros R. induction R as [it it' N|it N|it it' a l e N R IH]; intros Ee fuel Hf; try discriminate; (destruct fuel as [|fuel]; [cbn [length] in Hf; lia|]); cbn [collect]; rewrite N; cbn [bind].
  - reflexivity.
  - rewrite (IH Ee fuel) by (cbn [length] in Hf; lia). reflexivity.
Qed.
Lemma collect_panic_run A : forall fuel (it : iter A), collect fuel it = Panic -> exists l, Run it l Crash.
Proof.
  induction fuel as [|fuel IH]; intros it H; [discriminate|]. cbn [collect] in H. destruct (next it) as [[[a|] it']| |] eqn:N; cbn [bind] in H; try discriminate.
  - destruct (collect fuel it') as [l| |] eqn:C; cbn [bind] in H; try discriminate. destruct (IH it' C) as (l & R). exists (a :: l). eapply Run_cons; eassumption.
  - exists []. apply Run_crash. exact N.
Qed.

Section Check.
  Context (m : mode) (c : codecs) (vfuel : nat) (d : list byte) (g : grib2).

  (** One submessage. *)
  Definition one (v : view) : outcome (result unit grib_error) :=
    let! r := decoded_alone m d v in
    match r with
    | Err e => Ret (Err e)
    | Ok dec => let! r := dispatch c m dec in match r with Err e => Ret (Err e) | Ok it => let! _ := collect vfuel it in Ret (Ok tt) end
    end.
  Fixpoint ones (vs : list view) : outcome (result unit cli_error) :=
    match vs with
    | [] => Ret (Ok tt)
    | v :: vs' => let! r := one v in match r with Err e => Ret (Err (Grib e)) | Ok _ => ones vs' end
    end.
  Lemma loop_ones : forall vs vs0 s fuel, all_views g (vs0 ++ vs) -> data s = d -> (length vs < fuel)%nat ->
    check_loop m c vfuel fuel g s (zlen vs0) = ones vs.
  Proof.
    induction vs as [|v vs IH]; intros vs0 s fuel V Hs Hf; (destruct fuel as [|fuel]; [cbn [length] in Hf; lia|]); cbn [check_loop ones]; unfold zlen; rewrite (next_at _ _ _ _ V).
    - replace (nth_error (vs0 ++ []) (length vs0)) with (@None view); [reflexivity|]. symmetry. apply nth_error_None. rewrite app_nil_r. lia.
    - rewrite nth_error_app2, Nat.sub_diag by lia. cbn [nth_error bind]. unfold one. pose proof (decode_history m d v s Hs) as DH.
      destruct (decoded_alone m d v) as [r| |]; [|rewrite DH; reflexivity|rewrite DH; reflexivity]. destruct DH as (s' & -> & Hs'). cbn [bind].
      destruct r as [dec|e]; [|reflexivity]. destruct (dispatch c m dec) as [[it|e]| |]; cbn [bind]; try reflexivity.
      destruct (collect vfuel it); cbn [bind]; try reflexivity.
      rewrite <- (IH (vs0 ++ [v]) s' fuel) by (rewrite <- ?app_assoc; cbn [app length] in *; assumption || lia).
      unfold zlen. rewrite app_length. cbn [length]. f_equal. lia.
  Qed.

  Context (vs : list view) (En : enough m c d vs vfuel).
  Lemma one_ok v : In v vs -> (one v = Ret (Ok tt) <-> exists out, decoding m c d v (Ok out)).
  Proof.
    intros I. unfold one. cbn [decoding]. split.
    - intros H. destruct (decoded_alone m d v) as [[dec|e]| |]; cbn [bind] in H; try discriminate. destruct (dispatch c m dec) as [[it|e]| |] eqn:D; cbn [bind] in H; try discriminate.
      destruct (collect vfuel it) as [out| |] eqn:C; cbn [bind] in H; try discriminate. exists out, dec, it. split; [reflexivity|]. split; [exact D|]. eapply collect_Run. exact C.
    - intros (out & dec & it & A & B & R). rewrite A. cbn [bind]. rewrite B. cbn [bind]. rewrite (collect_Run' _ it out End R eq_refl vfuel (En v dec it out End I A B R)). reflexivity.
  Qed.
  Lemma one_err v e : one v = Ret (Err e) <-> decoding m c d v (Err e).
  Proof.
    unfold one. cbn [decoding]. split.
    - intros H. destruct (decoded_alone m d v) as [[dec|e']| |]; cbn [bind] in H; try discriminate.
      + right. exists dec. split; [reflexivity|]. destruct (dispatch c m dec) as [[it|e']| |]; cbn [bind] in H; try discriminate; [|congruence].
        destruct (collect vfuel it); discriminate.
      + left. congruence.
    - intros [->|(dec & -> & D)]; cbn [bind]; [reflexivity|]. rewrite D. reflexivity.
  Qed.
  Lemma one_panic v : In v vs -> (one v = Panic <-> decoding_panics m c d v).
  Proof.
    intros I. unfold one, decoding_panics. split.
    - intros H. destruct (decoded_alone m d v) as [[dec|e]| |] eqn:A; cbn [bind] in H; try discriminate; [|left; reflexivity]. right.
      destruct (dispatch c m dec) as [[it|e]| |] eqn:D; cbn [bind] in H; try discriminate.
      + right. exists dec, it. destruct (collect vfuel it) as [out| |] eqn:C; cbn [bind] in H; try discriminate. destruct (collect_panic_run _ _ _ C) as (l & R). exists l. auto.
      + left. exists dec. auto.
    - intros [->|[(dec & -> & D)|(dec & it & out & A & B & R)]]; cbn [bind]; [reflexivity|rewrite D; reflexivity|].
      rewrite A. cbn [bind]. rewrite B. cbn [bind]. rewrite (collect_crash _ it out Crash R eq_refl vfuel (En v dec it out Crash I A B R)). reflexivity.
  Qed.
  Lemma ones_ok l : incl l vs -> (ones l = Ret (Ok tt) <-> Forall (fun v => exists out, decoding m c d v (Ok out)) l).
  Proof.
    induction l as [|v l IH]; intros I; cbn [ones]; [split; [constructor|reflexivity]|].
    assert (Iv : In v vs) by (apply I; left; reflexivity). specialize (IH ltac:(intros x Hx; apply I; right; exact Hx)). split.
    - intros H. destruct (one v) as [[[]|e]| |] eqn:O; cbn [bind] in H; try discriminate. constructor; [apply one_ok; assumption|]. apply IH. exact H.
    - intros H. inversion H as [|x y Hx Hy]; subst. apply (one_ok v Iv) in Hx. rewrite Hx. cbn [bind]. apply IH. exact Hy.
  Qed.
  Lemma ones_stop l (r : outcome (result unit cli_error)) (F : view -> Prop) : incl l vs -> r <> Ret (Ok tt) ->
    (forall v, In v vs -> (F v <-> match one v with Ret (Err e) => Ret (Err (Grib e)) = r | Ret (Ok _) => False | Panic => r = Panic | Diverge => r = Diverge end)) ->
    (ones l = r <-> first_failure m c d l F).
  Proof.
    intros I Nr HF. induction l as [|v l IH]; cbn [ones].
    - split; [intros H; congruence|]. intros (pre & v & post & E & _). destruct pre; discriminate.
    - assert (Iv : In v vs) by (apply I; left; reflexivity). specialize (IH ltac:(intros x Hx; apply I; right; exact Hx)). specialize (HF v Iv). split.
      + intros H. destruct (one v) as [[[]|e]| |] eqn:O; cbn [bind] in H.
        * apply IH in H. destruct H as (pre & x & post & -> & A & B). exists (v :: pre), x, post. split; [reflexivity|]. split; [|exact B]. constructor; [apply one_ok; assumption|exact A].
        * exists [], v, l. split; [reflexivity|]. split; [constructor|]. apply HF. exact H.
        * exists [], v, l. split; [reflexivity|]. split; [constructor|]. apply HF. congruence.
        * exists [], v, l. split; [reflexivity|]. split; [constructor|]. apply HF. congruence.
      + intros (pre & x & post & E & A & B). destruct pre as [|y pre]; cbn [app] in E.
        * assert (x = v) by congruence. subst x. apply HF in B. destruct (one v) as [[[]|e]| |]; cbn [bind]; try contradiction; congruence.
        * assert (y = v /\ l = pre ++ x :: post) as (-> & ->) by (split; congruence). inversion A as [|z zs Hz Hzs]; subst. apply (one_ok v Iv) in Hz. rewrite Hz. cbn [bind]. apply IH.
          exists pre, x, post. auto.
  Qed.
End Check.

Lemma checked : forall m fuel s g, grib2_read m fuel s = Ret (Ok g) -> zlen (data s) < 2 ^ 63 -> 0 <= pos s <= zlen (data s) -> 0 < g_len g ->
  exists ms us vs, Forall wf_message ms /\ g_sections g = flat_map message_sections ms /\ submessages_of_all 0 ms us /\
    Forall2 (shows (g_sections g)) us vs /\ zlen vs = g_len g /\
    forall c vfuel, enough m c (data s) vs vfuel ->
    let run := check_decoding_file m c fuel vfuel s in
    (run = Ret (Ok tt) <-> Forall (fun v => exists out, decoding m c (data s) v (Ok out)) vs) /\
    (forall e, run = Ret (Err e) <-> exists e', e = Grib e' /\ first_failure m c (data s) vs (fun v => decoding m c (data s) v (Err e'))) /\
    (run = Panic <-> first_failure m c (data s) vs (decoding_panics m c (data s))).
Proof.
  intros m fuel s g E Hl Hp Hg. destruct (file_good m fuel s g E Hl Hp) as (ms & us & vs & W & Es & U & S & L & M & Gd & _).
  exists ms, us, vs. repeat (split; [assumption|]). intros c vfuel En. cbn zeta. unfold check_decoding_file. rewrite E. cbn [bind]. unfold g_is_empty.
  replace (g_len g =? 0) with false by lia.
  rewrite (loop_ones m c vfuel (data s) g vs [] (g_src g)); [|exact M|apply (reader_data m fuel s g E Hl); lia|pose proof (count_subs g vs M); lia].
  assert (I : incl vs vs) by (intros x; auto). split; [|split].
  - apply (ones_ok m c vfuel (data s) vs En vs I).
  - intros e. split.
    + intros H. assert (X : exists e', e = Grib e').
      { clear - H. revert H. induction vs as [|v l IH]; cbn [ones]; [discriminate|]. destruct (one m c vfuel (data s) v) as [[[]|e']| |]; cbn [bind]; try discriminate; [exact IH|].
        intros H. exists e'. congruence. }
      destruct X as (e' & ->). exists e'. split; [reflexivity|]. revert H. apply (ones_stop m c vfuel (data s) vs En vs); [exact I|discriminate|].
      intros v Hv. rewrite <- (one_err m c vfuel (data s) v e'). destruct (one m c vfuel (data s) v) as [[[]|e'']| |]; split; intros H; try discriminate; try contradiction; congruence.
    + intros (e' & -> & H). revert H. apply (ones_stop m c vfuel (data s) vs En vs); [exact I|discriminate|].
      intros v Hv. rewrite <- (one_err m c vfuel (data s) v e'). destruct (one m c vfuel (data s) v) as [[[]|e'']| |]; split; intros H; try discriminate; try contradiction; congruence.
  - apply (ones_stop m c vfuel (data s) vs En vs); [exact I|discriminate|].
    intros v Hv. rewrite <- (one_panic m c vfuel (data s) vs En v Hv). destruct (one m c vfuel (data s) v) as [[[]|e'']| |]; split; intros H; try discriminate; try contradiction; congruence.
Qed.

(** The files are checked one after the other, up to the first that fails. *)
Lemma checked_files : forall m c rfuel vfuel files r,
  check_decoding m c rfuel vfuel files = Ret r <->
  (r = Ok tt /\ Forall (fun s => check_decoding_file m c rfuel vfuel s = Ret (Ok tt)) files) \/
  exists pre s post e, files = pre ++ s :: post /\ Forall (fun s => check_decoding_file m c rfuel vfuel s = Ret (Ok tt)) pre /\
    check_decoding_file m c rfuel vfuel s = Ret (Err e) /\ r = Err e.
Proof.
  intros m c rfuel vfuel files r. induction files as [|s files IH]; cbn [check_decoding].
  - split; [intros H; left; split; [congruence|constructor]|]. intros [(-> & _)|(pre & s & post & e & E & _)]; [reflexivity|]. destruct pre; discriminate.
  - split.
    + intros H. destruct (check_decoding_file m c rfuel vfuel s) as [[[]|e]| |] eqn:O; cbn [bind] in H; try discriminate.
      * apply IH in H. destruct H as [(-> & A)|(pre & x & post & e & -> & A & B)]; [left; split; [reflexivity|constructor; assumption]|].
        right. exists (s :: pre), x, post, e. split; [reflexivity|]. split; [constructor; assumption|exact B].
      * right. exists [], s, files, e. split; [reflexivity|]. split; [constructor|]. split; [exact O|congruence].
    + intros [(-> & A)|(pre & x & post & e & E & A & B & ->)].
      * inversion A as [|y ys Hy Hys]; subst. rewrite Hy. cbn [bind]. apply IH. left. auto.
      * destruct pre as [|y pre]; cbn [app] in E.
        -- assert (x = s) by congruence. subst x. rewrite B. reflexivity.
        -- assert (y = s /\ files = pre ++ x :: post) as (-> & ->) by (split; congruence). inversion A as [|z zs Hz Hzs]; subst. rewrite Hz. cbn [bind]. apply IH.
           right. exists pre, x, post, e. auto.
Qed.

(** Enough fuel, by running it. *)
Lemma collect_diverge A (it : iter A) l e : Run it l e -> forall fuel, collect fuel it <> Diverge -> (length l < fuel)%nat.
Proof.
  intros R. induction R as [it it' N|it N|it it' a l e N R IH]; intros fuel H; (destruct fuel as [|fuel]; [elim H; reflexivity|]); cbn [length]; try lia.
  cbn [collect] in H. rewrite N in H. cbn [bind] in H. assert (collect fuel it' <> Diverge) by (intros X; rewrite X in H; elim H; reflexivity).
  specialize (IH fuel ltac:(assumption)). lia.
Qed.
Lemma enough_run m c d vs n :
  Forall (fun v => match decoded_alone m d v with Ret (Ok dec) => match dispatch c m dec with Ret (Ok it) => match collect n it with Diverge => False | _ => True end | _ => True end | _ => True end) vs ->
  enough m c d vs n.
Proof.
  intros F v dec it out end_ I D E R. rewrite Forall_forall in F. specialize (F v I). cbv beta in F. rewrite D, E in F. apply (collect_diverge _ it out end_ R). intros X. rewrite X in F. exact F.
Qed.

(** Files that cannot be read; files without submessages. *)
Lemma unreadable : forall m fuel s e, grib2_read m fuel s = Ret (Err e) ->
  (forall p hours, find_layers p m fuel s hours = Ret (Err e)) /\ (forall p, list_layers p m fuel s = Ret (Err e)) /\
  (forall lm pl c gfuel vfuel shortest index, decode_layer m lm pl c fuel gfuel vfuel shortest s index = Ret (Err (Grib e))) /\
  (forall c vfuel, check_decoding_file m c fuel vfuel s = Ret (Err (Grib e))).
Proof.
  intros m fuel s e H. unfold find_layers, list_layers, decode_layer, check_decoding_file. rewrite H. repeat split.
Qed.
Lemma empty_file : forall m fuel s g, grib2_read m fuel s = Ret (Ok g) -> g_len g = 0 ->
  forall c vfuel, check_decoding_file m c fuel vfuel s = Ret (Err EmptyData).
Proof.
  intros m fuel s g H L c vfuel. unfold check_decoding_file, g_is_empty. rewrite H. cbn [bind]. rewrite L. reflexivity.
Qed.
