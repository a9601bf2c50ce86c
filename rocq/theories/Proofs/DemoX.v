(** The demo. *)
From Coq Require Import Lia ZifyBool ZifyNat Strings.String Floats.SpecFloat Reals Lra.
From Flocq Require Import Core.Core IEEE754.BinarySingleNaN.
From Verif Require Import Model.Base Model.Errors Model.F32 Model.F64 Model.Sections Model.Reader Model.Parser Model.Context Model.Product Model.Grid Model.Decoder Model.Tools Model.Text Model.Tables Model.Cli Model.Demo.
From Verif Require Import Spec.ReaderS Spec.ParserS Spec.ContextS Spec.FieldsS Spec.GridS Spec.FloatS Spec.Layout Spec.DecodeS Spec.ToolsS Spec.SessionS.
From Verif Require Import Proofs.BaseLemmas Proofs.ReaderP Proofs.KeepP Proofs.ContextP Proofs.ContextX Proofs.ViewX Proofs.ToolsP Proofs.ToolsF Proofs.ToolsX Proofs.TextP Proofs.SessionX Proofs.CliP Proofs.CliX Proofs.FloatP Proofs.PointsP Proofs.ProgramsX.
From Verif Require Import Spec.CliS Spec.ProgramsS Spec.DemoS.
Local Open Scope Z_scope.
Lemma ret_inj A (a b : A) : Ret a = Ret b -> a = b.
Proof. congruence. Qed.
Ltac Zify.zify_post_hook ::= Z.div_mod_to_equations.

(** ** The table *)

Section Row.
  Context (e : printer) (Ce : compiles e) (v : view) (disc total : Z) (i p3 p p5 : list byte) (n k : Z) (G : good v disc total i p3 p p5 n k).

  Lemma demo_row_eq m : demo_row e m v =
    let! parameter := parameter_text e v p in
    let! process := process_text e p in
    let! ft := time_text p in
    let! ss := surface_texts e m p in
    let! g := grid_text m p3 in
    let! pts := points_text m n k in
    Ret [id_text v; parameter; process; ft; fst ss; snd ss; fst pts; snd pts; g].
  Proof.
    unfold demo_row. rewrite (g_prod _ _ _ _ _ _ _ _ _ G), (g_grid _ _ _ _ _ _ _ _ _ G), (g_repr _ _ _ _ _ _ _ _ _ G). cbn [bind].
    destruct (parameter_text e v p) as [a| |]; cbn [bind]; try reflexivity.
    destruct (process_text e p) as [b| |]; cbn [bind]; try reflexivity. unfold time_text. destruct (forecast_time p) as [ft| |]; cbn [bind]; try reflexivity.
    unfold surface_texts. destruct (fixed_surfaces m p) as [fs| |]; cbn [bind]; try reflexivity.
    rewrite (G_n _ _ _ _ _ _ _ _ _ G), (G_k _ _ _ _ _ _ _ _ _ G). cbn [bind].
    unfold grid_text, points_text. destruct fs as [[s1 s2]|]; destruct (grid_of_payload m p3) as [[g|x]| |]; cbn [bind]; try reflexivity.
    all: try (destruct (arith m U32 (n - k)); reflexivity).
    all: destruct (grid_tmpl_num p3); cbn [bind]; try reflexivity; destruct (arith m U32 (n - k)); reflexivity.
  Qed.

  Lemma cells_iff m cells : demo_cells e m v cells <-> demo_row e m v = Ret cells.
  Proof.
    rewrite demo_row_eq. pose proof (G_nr _ _ _ _ _ _ _ _ _ G) as Hn. pose proof (G_kr _ _ _ _ _ _ _ _ _ G) as Hk.
    assert (Ix : exists d, v_indicator v = Ret d) by (eexists; eapply g_indicator; exact G). split.
    - intros (q & q3 & q5 & n' & k' & E1 & E2 & E3 & E4 & E5 & id & par & proc & ft & s1 & s2 & nan & tot & gr & H1 & H2 & H3 & H4 & H5 & H6 & H7 & ->).
      rewrite (g_prod _ _ _ _ _ _ _ _ _ G) in E1. injection E1 as <-. rewrite (g_grid _ _ _ _ _ _ _ _ _ G) in E2. injection E2 as <-. rewrite (g_repr _ _ _ _ _ _ _ _ _ G) in E3. injection E3 as <-.
      rewrite (G_n _ _ _ _ _ _ _ _ _ G) in E4. injection E4 as <-. rewrite (G_k _ _ _ _ _ _ _ _ _ G) in E5. injection E5 as <-.
      apply (parameter_iff e Ce v p par Ix) in H2. apply (process_iff e Ce) in H3. apply forecast_iff in H4. apply surfaces_iff in H5. apply points_iff in H6; try assumption.
      apply grid_name_iff in H7; [|apply (G_l3 _ _ _ _ _ _ _ _ _ G)]. apply (id_iff _ _ _ _ _ _ _ _ _ G) in H1. fold (time_text p) in H4. fold (surface_texts e m p) in H5. fold (points_text m n k) in H6. fold (grid_text m p3) in H7.
      rewrite H2, H3, H4, H5, H6, H7. cbn [bind fst snd]. subst. reflexivity.
    - intros H. apply bind_ret_inv in H. destruct H as (par & H2 & H). apply bind_ret_inv in H. destruct H as (proc & H3 & H). apply bind_ret_inv in H. destruct H as (ft & H4 & H).
      apply bind_ret_inv in H. destruct H as ([s1 s2] & H5 & H). apply bind_ret_inv in H. destruct H as (gr & H7 & H). apply bind_ret_inv in H. destruct H as ([nan tot] & H6 & H). apply ret_inj in H. cbn [fst snd] in H.
      exists p, p3, p5, n, k. split; [eapply g_prod; exact G|]. split; [eapply g_grid; exact G|]. split; [eapply g_repr; exact G|]. split; [apply (G_n _ _ _ _ _ _ _ _ _ G)|]. split; [apply (G_k _ _ _ _ _ _ _ _ _ G)|].
      exists (id_text v), par, proc, ft, s1, s2, nan, tot, gr. split; [apply (id_iff _ _ _ _ _ _ _ _ _ G); reflexivity|]. split; [apply parameter_iff; assumption|]. split; [apply process_iff; assumption|].
      split; [apply forecast_iff; exact H4|]. split; [apply surfaces_iff; exact H5|]. split; [apply points_iff; assumption|]. split; [apply grid_name_iff; [apply (G_l3 _ _ _ _ _ _ _ _ _ G)|exact H7]|].
      symmetry. exact H.
  Qed.

  (** A row panics when a line of gribber list does. *)
  Lemma row_like_line m : (exists cells, demo_row e m v = Ret cells) <-> (exists line, list_row e m v = Ret line).
  Proof.
    rewrite demo_row_eq, (list_row_eq e v disc total i p3 p p5 n k G).
    destruct (parameter_text e v p); cbn [bind]; [|split; intros (? & H); discriminate..]. destruct (process_text e p); cbn [bind]; [|split; intros (? & H); discriminate..].
    destruct (time_text p); cbn [bind]; [|split; intros (? & H); discriminate..]. destruct (surface_texts e m p); cbn [bind]; [|split; intros (? & H); discriminate..].
    destruct (grid_text m p3); cbn [bind]; [|split; intros (? & H); discriminate..]. destruct (points_text m n k); cbn [bind]; [|split; intros (? & H); discriminate..].
    split; intros _; eexists; reflexivity.
  Qed.
  Lemma demo_row_quiet m : quiet (demo_row e m v).
  Proof.
    destruct (list_row_panic e v disc total i p3 p p5 n k G m) as (Q & _). revert Q. rewrite demo_row_eq, (list_row_eq e v disc total i p3 p p5 n k G). unfold quiet.
    destruct (parameter_text e v p); cbn [bind]; try (intros; discriminate || congruence). destruct (process_text e p); cbn [bind]; try (intros; discriminate || congruence).
    destruct (time_text p); cbn [bind]; try (intros; discriminate || congruence). destruct (surface_texts e m p); cbn [bind]; try (intros; discriminate || congruence).
    destruct (grid_text m p3); cbn [bind]; try (intros; discriminate || congruence). destruct (points_text m n k); cbn [bind]; try (intros; discriminate || congruence).
  Qed.
End Row.

Lemma table_shown : forall m fuel s g, grib2_read m fuel s = Ret (Ok g) -> zlen (data s) < 2 ^ 63 -> 0 <= pos s <= zlen (data s) ->
  exists ms us vs, Forall wf_message ms /\ g_sections g = flat_map message_sections ms /\ submessages_of_all 0 ms us /\
    Forall2 (shows (g_sections g)) us vs /\ zlen vs = g_len g /\
    forall e m', compiles e ->
    (forall h rows, demo_table e m' g = Ret (h, rows) <->
       (exists w, written (zlen vs) w /\ h = w ++ text " submessage(s)") /\ Forall2 (demo_cells e m') vs rows) /\
    (demo_table e m' g = Panic <-> exists v, In v vs /\ forall line, ~ list_line e m' v line) /\
    demo_table e m' g <> Diverge.
Proof.
  intros m fuel s g E Hl Hp. destruct (file_good m fuel s g E Hl Hp) as (ms & us & vs & W & Es & U & S & L & M & Gd & _).
  exists ms, us, vs. repeat (split; [assumption|]). intros e m' Ce.
  assert (Lg : 0 <= g_len g < 2 ^ 64).
  { destruct (BoundX.file_bound m fuel s g E Hl Hp) as (ms' & us' & _ & _ & _ & _ & Hb). pose proof (zlen_nonneg _ ms'). pose proof (zlen_nonneg _ (g_subs g)). unfold g_len in *. lia. }
  unfold demo_table. rewrite (ContextX.size_all m' g 0 ltac:(lia) ltac:(lia)).
  replace (0 <=? g_len g) with true by lia. replace (g_len g - 0) with (zlen vs) by lia. cbn [bind]. rewrite (all_of_map _ g vs _ M).
  assert (LI : forall v, In v vs -> forall cells, demo_cells e m' v cells <-> demo_row e m' v = Ret cells).
  { intros v Hv cells. destruct (Gd v Hv) as (disc & total & i & p3 & p & p5 & n & k & G). eapply cells_iff; eassumption. }
  assert (QI : forall v, In v vs -> quiet (demo_row e m' v)).
  { intros v Hv. destruct (Gd v Hv) as (disc & total & i & p3 & p & p5 & n & k & G). eapply demo_row_quiet; eassumption. }
  destruct (mapM_panic _ _ (demo_row e m') vs QI) as (Q & P). split; [|split].
  - intros h rows. rewrite bind_ret_inv. split.
    + intros (ls & A & B). apply ret_inj in B. assert (Eh : h = show_uint (zlen vs) ++ str " submessage(s)") by congruence. assert (ls = rows) by congruence. subst ls h. split.
      * eexists. split; [|reflexivity]. apply written_show. apply zlen_nonneg.
      * apply mapM_ret in A. apply (forall2_iff _ _ _ _ vs rows LI). exact A.
    + intros ((w & Hw & ->) & A). apply written_iff in Hw as (_ & ->). exists rows. split; [|reflexivity]. apply mapM_ret. apply (forall2_iff _ _ _ _ vs rows LI). exact A.
  - rewrite bind_panic, P. split.
    + intros [(v & Hv & H)|(a & _ & H)]; [|discriminate]. exists v. split; [exact Hv|]. destruct (Gd v Hv) as (disc & total & i & p3 & p & p5 & n & k & G). intros line K.
      apply (list_line_iff e Ce v disc total i p3 p p5 n k G) in K. destruct (proj2 (row_like_line e v disc total i p3 p p5 n k G m') (ex_intro _ _ K)) as (c & Hc). congruence.
    + intros (v & Hv & H). left. exists v. split; [exact Hv|]. destruct (Gd v Hv) as (disc & total & i & p3 & p & p5 & n & k & G).
      pose proof (QI v Hv) as Qv. unfold quiet in Qv. destruct (demo_row e m' v) as [cells| |] eqn:R; [|reflexivity|congruence].
      destruct (proj1 (row_like_line e v disc total i p3 p p5 n k G m') (ex_intro _ _ R)) as (line & K). exfalso. apply (H line). apply (list_line_iff e Ce v disc total i p3 p p5 n k G). exact K.
  - apply q_bind; [exact Q|]. intros. apply q_ret.
Qed.

(** ** Colours *)

Lemma flt_finite x y : valid x -> valid y -> finite x -> finite y -> (SFltb x y = true <-> (val x < val y)%R).
Proof.
  intros Hx Hy. destruct (valid_ex x Hx) as [bx ->], (valid_ex y Hy) as [b_y ->].
  rewrite !finite_B, !val_B. intros Fx Fy.
  change (SFltb (B2SF bx) (B2SF b_y)) with (Bltb bx b_y). rewrite (Bltb_correct _ _ bx b_y Fx Fy).
  split; intro H.
  - destruct (Rlt_bool_spec (B2R bx) (B2R b_y)); [assumption|discriminate].
  - apply Rlt_bool_true, H.
Qed.

Lemma mag_9 x : (256 <= x < 512)%R -> mag radix2 x = 9 :> Z.
Proof. intros H. apply mag_unique. change (bpow radix2 (9 - 1)) with 256%R. change (bpow radix2 9) with 512%R. rewrite Rabs_pos_eq by lra. lra. Qed.
Lemma rnd_nearest x n : (256 <= x < 512)%R -> (Rabs (x * 32768 - IZR n) < / 2)%R -> rnd32 x = (IZR n / 32768)%R.
Proof.
  intros H K. unfold rnd32, round, scaled_mantissa, cexp. rewrite mag_9 by exact H. change (FLT_exp (-149) 24 9) with (-15). change (bpow radix2 (- -15)) with 32768%R.
  rewrite (Znearest_imp _ _ n K). unfold F2R. cbn [Fnum Fexp]. change (bpow radix2 (-15)) with (/ 32768)%R. reflexivity.
Qed.
Lemma celsius_rnd : rnd32 (27315 / 100) = (8950579 / 32768)%R.
Proof. apply rnd_nearest; [lra|]. apply Rabs_def1; lra. Qed.
Lemma kelvin_exact c : -17 <= c <= 200 -> kelvin c = (IZR c + 8950579 / 32768)%R.
Proof.
  intros H. unfold kelvin. rewrite celsius_rnd. assert (A : (-17 <= IZR c <= 200)%R) by (split; apply IZR_le; lia).
  rewrite (rnd_nearest _ (c * 32768 + 8950579)); [|lra|].
  - rewrite plus_IZR, mult_IZR. lra.
  - rewrite plus_IZR, mult_IZR. replace (_ - _)%R with 0%R by lra. rewrite Rabs_R0. lra.
Qed.
Lemma limits : forall x, In x temperature_classes -> kelvin (fst x) = (IZR (fst x) + 27315 / 100 - 1 / 163840)%R.
Proof. intros x H. rewrite kelvin_exact; [lra|]. unfold temperature_classes in H. cbn [In] in H. repeat (destruct H as [<-|H]; [cbn [fst]; lia|]). destruct H. Qed.

Definition is_limit (t : f32) (c : Z) : Prop := valid t /\ finite t /\ val t = kelvin c.
Lemma above_iff t c v : is_limit t c -> number32 v -> (SFltb t v = true <-> above v c).
Proof.
  intros (Vt & Ft & Et) Hv. unfold above. destruct v as [s|s| |s m e].
  - rewrite (flt_finite t _ Vt Hv Ft eq_refl), Et. split; [intros H; right; split; [reflexivity|exact H]|intros [H|(_ & H)]; [discriminate|exact H]].
  - destruct s.
    + split; [destruct t as [[]|[]| |[]]; intros H; discriminate H|]. intros [H|(H & _)]; discriminate H.
    + split; [left; reflexivity|]. intros _. destruct t as [[]|[]| |[]]; (reflexivity || discriminate Ft).
  - split; [destruct t as [[]|[]| |[]]; intros H; discriminate H|]. intros [H|(H & _)]; discriminate H.
  - rewrite (flt_finite t _ Vt Hv Ft eq_refl), Et. split; [intros H; right; split; [reflexivity|exact H]|intros [H|(_ & H)]; [discriminate|exact H]].
Qed.
Lemma limit_is n c m : -17 <= c <= 200 -> n = S754_finite false m (-15) -> valid n -> Zpos m = 8950579 + c * 32768 -> is_limit n c.
Proof.
  intros H -> V M. split; [exact V|]. split; [reflexivity|]. rewrite kelvin_exact by exact H. unfold val. cbn [SF2R]. unfold F2R. cbn [Fnum Fexp cond_Zopp]. rewrite M, plus_IZR, mult_IZR.
  change (bpow radix2 (-15)) with (/ 32768)%R. lra.
Qed.
Definition arm_of (a : f32 * list byte) (x : Z * list Z) : Prop := is_limit (degrees_celsius_to_kelvin (fst a)) (fst x) /\ map bz (snd a) = snd x ++ [255].
Lemma arms : Forall2 arm_of palette_arms temperature_classes.
Proof.
  unfold palette_arms, temperature_classes. cbn [map fst snd].
  repeat (constructor; [split; cbn [fst snd]; [eapply limit_is; [lia|vm_compute; reflexivity|vm_compute; reflexivity|reflexivity]|vm_compute; reflexivity]|]). constructor.
Qed.

Lemma find_class v (Hv : number32 v) : forall l l', Forall2 arm_of l l' ->
  match find (fun a => SFltb (degrees_celsius_to_kelvin (fst a)) v) l with
  | Some a => exists pre c rgb post, l' = pre ++ (c, rgb) :: post /\ (forall x, In x pre -> ~ above v (fst x)) /\ above v c /\ map bz (snd a) = rgb ++ [255]
  | None => forall x, In x l' -> ~ above v (fst x)
  end.
Proof.
  intros l l' F. induction F as [|a [c rgb] l l' (L & B) F IH]; cbn [find]; [intros x []|]. cbn [fst snd] in *. pose proof (above_iff _ _ v L Hv) as A.
  destruct (SFltb (degrees_celsius_to_kelvin (fst a)) v) eqn:E.
  - exists [], c, rgb, l'. split; [reflexivity|]. split; [intros x []|]. split; [apply A; reflexivity|exact B].
  - assert (N : ~ above v c) by (intros X; apply A in X; discriminate). destruct (find _ l).
    + destruct IH as (pre & c' & rgb' & post & -> & P & Q & R). exists ((c, rgb) :: pre), c', rgb', post. split; [reflexivity|]. split; [|auto]. intros x [<-|Hx]; [exact N|apply P, Hx].
    + intros x [<-|Hx]; [exact N|apply IH, Hx].
Qed.
Lemma palette : forall v, number32 v -> coloured v (jma_amedas_temperature v).
Proof.
  intros v Hv. pose proof (find_class v Hv _ _ arms) as H. unfold jma_amedas_temperature, coloured. destruct (find _ palette_arms) as [a|].
  - destruct H as (pre & c & rgb & post & E & P & Q & R). exists rgb. split; [exact R|]. left. exists pre, c, post. auto.
  - exists coldest. split; [reflexivity|]. right. auto.
Qed.
Lemma palette_nan : map bz (jma_amedas_temperature f32_nan) = coldest ++ [255].
Proof. vm_compute. reflexivity. Qed.
Lemma palette_four v : length (jma_amedas_temperature v) = 4%nat.
Proof.
  unfold jma_amedas_temperature. assert (H : Forall (fun a => length (snd a) = 4%nat) palette_arms) by (vm_compute; repeat constructor). rewrite Forall_forall in H.
  destruct (find _ palette_arms) eqn:E; [|reflexivity]. apply find_some in E. apply H, E.
Qed.

(** ** Pictures *)

Lemma pixels_len out : zlen (flat_map jma_amedas_temperature out) = 4 * zlen out.
Proof. unfold zlen. induction out as [|v l IH]; [reflexivity|]. cbn [flat_map length]. rewrite app_length, palette_four. lia. Qed.
Lemma pixel_at : forall out k v, nth_error out k = Some v -> firstn 4 (skipn (4 * k) (flat_map jma_amedas_temperature out)) = jma_amedas_temperature v.
Proof.
  intros out k. revert out. induction k as [|k IH]; intros [|x l] v E; try discriminate.
  - cbn [nth_error] in E. injection E as ->. change (4 * 0)%nat with 0%nat. cbn [flat_map skipn]. rewrite firstn_app, firstn_all2 by (rewrite palette_four; lia). rewrite palette_four, Nat.sub_diag. apply app_nil_r.
  - cbn [nth_error] in E. cbn [flat_map]. replace (4 * S k)%nat with (length (jma_amedas_temperature x) + 4 * k)%nat by (rewrite palette_four; lia). rewrite skipn_app, skipn_all2 by lia.
    cbn [app]. replace (_ + _ - _)%nat with (4 * k)%nat by lia. apply IH, E.
Qed.
Lemma image_some b w h i : 0 <= w -> 0 <= h -> (image_data b w h = Some i <-> 0 < w /\ 0 < h /\ zlen b = 4 * (w * h) /\ i = MkImage w h b).
Proof.
  intros Hw Hh. unfold image_data. pose proof (zlen_nonneg _ b). split.
  - intros E. destruct (Z.eqb_spec (zlen b) 0) as [E0|E0]; [discriminate|]. destruct (Z.eqb_spec (zlen b mod 4) 0) as [E1|E1]; [|discriminate]. cbn [negb orb] in E.
    destruct (Z.eqb_spec w 0) as [E2|E2]; [discriminate|]. destruct (Z.eqb_spec ((zlen b / 4) mod w) 0) as [E3|E3]; [|discriminate]. cbn [negb orb] in E.
    destruct (Z.eqb_spec h (zlen b / 4 / w)) as [E4|E4]; [|discriminate]. injection E as <-.
    assert (A : zlen b / 4 = w * h) by (rewrite E4; apply Z_div_exact_full_2; [exact E2|exact E3]). assert (B : zlen b = 4 * (w * h)) by (rewrite <- A; lia).
    split; [lia|]. split; [nia|]. split; [exact B|reflexivity].
  - intros (Pw & Ph & E & ->). rewrite E.
    replace (4 * (w * h) / 4) with (w * h) by (rewrite (Z.mul_comm 4), Z.div_mul; lia). replace ((4 * (w * h)) mod 4) with 0 by (rewrite (Z.mul_comm 4), Z.mod_mul; lia).
    replace ((w * h) mod w) with 0 by (rewrite (Z.mul_comm w), Z.mod_mul; lia). replace (w * h / w) with h by (rewrite (Z.mul_comm w), Z.div_mul; lia).
    replace (4 * (w * h) =? 0) with false by nia. replace (w =? 0) with false by lia. rewrite !Z.eqb_refl. reflexivity.
Qed.
Lemma image_none b w h : 0 <= w -> 0 <= h -> (image_data b w h = None <-> zlen b <> 4 * (w * h) \/ b = []).
Proof.
  intros Hw Hh. pose proof (zlen_nonneg _ b). split.
  - intros E. destruct (Z.eq_dec (zlen b) (4 * (w * h))) as [X|X]; [|left; exact X]. destruct b as [|x b]; [right; reflexivity|]. exfalso.
    assert (0 < zlen (x :: b)) by (unfold zlen; cbn [length]; lia).
    assert (K : image_data (x :: b) w h = Some (MkImage w h (x :: b))) by (apply image_some; try assumption; split; [nia|]; split; [nia|]; auto). congruence.
  - intros H'. destruct (image_data b w h) as [i|] eqn:E; [|reflexivity]. apply image_some in E as (A & B & C & _); try assumption. destruct H' as [H'|H']; [congruence|].
    subst b. unfold zlen in C. cbn [length] in C. nia.
Qed.

Section Picture.
  Context (m : mode) (c : codecs) (d : list byte) (v : view) (p3 : list byte) (E3 : v_grid_def v = Ret p3).
  (** A click, once the submessage is found. *)
  Definition click_view (fuel : nat) (s : src) : outcome (option image * src) :=
      let! p3 := v_grid_def v in
      let! sh := sub_grid_shape m p3 in
      match sh with
      | Err _ => Ret (None, s)
      | Ok (w, h) =>
          let! (r, s') := decoder_from m s v in
          match r with
          | Err _ => Panic
          | Ok d =>
              let! r := dispatch c m d in
              match r with
              | Err _ => Panic
              | Ok values =>
                  let! out := collect fuel values in
                  match image_data (flat_map jma_amedas_temperature out) (w mod 2 ^ 32) (h mod 2 ^ 32) with
                  | Some i => Ret (Some i, s')
                  | None => Panic
                  end
              end
          end
      end.
  Lemma shape_range w h : sub_grid_shape m p3 = Ret (Ok (w, h)) -> 0 <= w < 2 ^ 32 /\ 0 <= h < 2 ^ 32.
  Proof.
    unfold sub_grid_shape. destruct (grid_of_payload m p3) as [[g|]| |] eqn:G; cbn [bind]; try discriminate. intros H. pose proof (grid_dims m p3 g G) as D.
    destruct (grid_shape g). cbn [fst snd] in D. injection H as -> ->. exact D.
  Qed.
  Lemma click_pictured fuel s r s' : data s = d -> click_view fuel s = Ret (r, s') -> pictured m c d v r /\ data s' = d.
  Proof.
    intros Ed H. unfold click_view in H. rewrite E3 in H. cbn [bind] in H. unfold pictured.
    destruct (sub_grid_shape m p3) as [[[w h]|x]| |] eqn:Sh; cbn [bind] in H; try discriminate.
    - destruct (shape_range w h Sh) as (Rw & Rh). rewrite !Z.mod_small in H by assumption.
      pose proof (decode_history m d v s Ed) as DH. destruct (decoded_alone m d v) as [[dec|x]| |] eqn:Da; [| |rewrite DH in H; discriminate..].
      2: { destruct DH as (s1 & Es & _). rewrite Es in H. cbn [bind] in H. discriminate. }
      destruct DH as (s1 & Es & Ed1). rewrite Es in H. cbn [bind] in H. destruct (dispatch c m dec) as [[it|]| |] eqn:Di; cbn [bind] in H; try discriminate.
      destruct (collect fuel it) as [out| |] eqn:Co; cbn [bind] in H; try discriminate. apply collect_Run in Co.
      destruct (image_data _ w h) as [i|] eqn:Im; [|discriminate]. apply ret_inj in H. assert (r = Some i) by congruence. assert (s1 = s') by congruence. subst r s1. split; [|exact Ed1].
      apply image_some in Im as (Pw & Ph & Lb & ->); [|lia..]. rewrite pixels_len in Lb. exists p3, (Ok (w, h)). split; [exact E3|]. split; [exact Sh|].
      exists out. eexists. split; [exists dec, it; auto|]. split; [reflexivity|]. split; [exact Pw|]. split; [exact Ph|]. split; [lia|]. cbn [im_width im_height im_data]. split; [reflexivity|]. split; [reflexivity|].
      split; [rewrite pixels_len; lia|]. intros x y Hx Hy. destruct (nth_error out (Z.to_nat (y * w + x))) as [value|] eqn:Nt.
      + exists value. split; [reflexivity|]. pose proof (Keeps_Run _ _ _ _ _ Co (valid_dispatch c m dec it Di)) as V. rewrite Forall_forall in V. pose proof (V value (nth_error_In _ _ Nt)) as Nv. unfold octets. replace (Z.to_nat (4 * (y * w + x))) with (4 * Z.to_nat (y * w + x))%nat by nia. change (Z.to_nat 4) with 4%nat.
        rewrite (pixel_at _ _ _ Nt). apply palette, Nv.
      + apply nth_error_None in Nt. unfold zlen in Lb. exfalso. nia.
    - apply ret_inj in H. assert (r = None) by congruence. assert (s = s') by congruence. subst r s'. split; [|exact Ed]. exists p3, (Err x). auto.
  Qed.
  Lemma out_range fuel it out e : enough m c d [v] fuel -> decoded_alone m d v = Ret (Ok it) -> forall i, dispatch c m it = Ret (Ok i) -> Run i out e -> (length out < fuel)%nat.
  Proof. intros H Da i Di R. eapply H; [left; reflexivity|eassumption..]. Qed.
  Lemma click_panic fuel s : data s = d -> enough m c d [v] fuel -> (click_view fuel s = Panic <-> click_panics m c d v).
  Proof.
    intros Ed En. unfold click_view. rewrite E3. cbn [bind]. unfold click_panics.
    assert (P3 : forall P : list byte -> Prop, (exists q, v_grid_def v = Ret q /\ P q) <-> P p3).
    { intros P. split; [intros (q & Eq & H); assert (q = p3) by congruence; subst; exact H|intros H; exists p3; auto]. }
    rewrite P3. destruct (sub_grid_shape m p3) as [[[w h]|x]| |] eqn:Sh; cbn [bind].
    2: { split; [discriminate|]. intros [H|(w & h & H & _)]; discriminate. }
    2: { split; auto. }
    2: { split; [discriminate|]. intros [H|(w & h & H & _)]; discriminate. }
    destruct (shape_range w h Sh) as (Rw & Rh). rewrite !Z.mod_small by assumption.
    assert (WH : forall P : Z -> Z -> Prop, (@Ret (result (Z * Z) grib_error) (Ok (w, h)) = Panic \/ (exists w' h', @Ret (result (Z * Z) grib_error) (Ok (w, h)) = Ret (Ok (w', h')) /\ P w' h')) <-> P w h).
    { intros P. split; [intros [H|(w' & h' & H & K)]; [discriminate|]; injection H as <- <-; exact K|]. intros H. right. exists w, h. auto. }
    rewrite WH. pose proof (decode_history m d v s Ed) as DH. unfold decoding_panics, decoding. destruct (decoded_alone m d v) as [[dec|x]| |] eqn:Da.
    - destruct DH as (s1 & -> & _). cbn [bind]. destruct (dispatch c m dec) as [[it|x]| |] eqn:Di; cbn [bind].
      + split.
        * intros H. destruct (collect fuel it) as [out| |] eqn:Co; cbn [bind] in H; try discriminate.
          -- apply collect_Run in Co. destruct (image_data _ w h) as [i|] eqn:Im; [discriminate|]. apply image_none in Im; [|lia..]. rewrite pixels_len in Im.
             right; right. exists out. split; [exists dec, it; auto|]. destruct Im as [Im|Im]; [left; lia|right]. destruct out as [|o out]; [reflexivity|]. exfalso. apply (f_equal (@length _)) in Im.
             cbn [flat_map] in Im. rewrite app_length, palette_four in Im. discriminate.
          -- left. right; right. exists dec, it. destruct (collect_panic_run _ fuel it Co) as (out & R). exists out. auto.
        * intros [[H|[(dec' & H & K)|(dec' & it' & out & H & K & R)]]|[(x & [H|(dec' & H & K)])|(out & (dec' & it' & H & K & R) & L)]]; try discriminate; try (injection H as <-; congruence).
          -- injection H as <-. assert (it' = it) by congruence. subst it'. rewrite (collect_crash _ it out _ R eq_refl fuel) by (eapply out_range; eassumption). reflexivity.
          -- injection H as <-. assert (it' = it) by congruence. subst it'. rewrite (collect_Run' _ it out _ R eq_refl fuel) by (eapply out_range; eassumption). cbn [bind].
             replace (image_data (flat_map jma_amedas_temperature out) w h) with (@None image); [reflexivity|]. symmetry. apply image_none; [lia..|]. rewrite pixels_len. destruct L as [L| ->]; [left; lia|right; reflexivity].
      + split; [intros _; right; left; exists x; right; exists dec; auto|reflexivity].
      + split; [intros _; left; right; left; exists dec; auto|reflexivity].
      + split; [discriminate|].
        intros [[H|[(dec' & H & K)|(dec' & it' & out & H & K & R)]]|[(x & [H|(dec' & H & K)])|(out & (dec' & it' & H & K & R) & L)]]; try discriminate; injection H as <-; congruence.
    - destruct DH as (s1 & -> & _). cbn [bind]. split; [intros _; right; left; exists x; left; reflexivity|reflexivity].
    - rewrite DH. cbn [bind]. split; [intros _; left; left; reflexivity|reflexivity].
    - rewrite DH. cbn [bind]. split; [discriminate|].
      intros [[H|[(dec' & H & K)|(dec' & it' & out & H & K & R)]]|[(x & [H|(dec' & H & K)])|(out & (dec' & it' & H & K & R) & L)]]; discriminate.
  Qed.
End Picture.

Lemma click_at m c fuel g vs s k : all_views g vs ->
  demo_click m c fuel g s (Z.of_nat k) = match nth_error vs k with Some v => click_view m c v fuel s | None => Ret (None, s) end.
Proof. intros M. unfold demo_click, sub_iter_nth. rewrite (next_at g vs k false M). destruct (nth_error vs k); reflexivity. Qed.

Lemma clicked : forall m rfuel s g, grib2_read m rfuel s = Ret (Ok g) -> zlen (data s) < 2 ^ 63 -> 0 <= pos s <= zlen (data s) ->
  exists ms us vs, Forall wf_message ms /\ g_sections g = flat_map message_sections ms /\ submessages_of_all 0 ms us /\
    Forall2 (shows (g_sections g)) us vs /\ zlen vs = g_len g /\
    (forall c fuel clicks is, demo_clicks m c fuel g (g_src g) (map Z.of_nat clicks) = Ret is ->
       Forall2 (fun k i => match nth_error vs k with Some v => pictured m c (data s) v i | None => i = None end) clicks is) /\
    (forall c fuel s' k, data s' = data s -> enough m c (data s) vs fuel ->
       (demo_click m c fuel g s' (Z.of_nat k) = Panic <-> exists v, nth_error vs k = Some v /\ click_panics m c (data s) v)).
Proof.
  intros m rfuel s g E Hl Hp. destruct (file_good m rfuel s g E Hl Hp) as (ms & us & vs & W & Es & U & S & L & M & Gd & _).
  exists ms, us, vs. repeat (split; [assumption|]). split.
  - intros c fuel clicks. pose proof (reader_data m rfuel s g E Hl ltac:(lia)) as Ds. revert Ds. generalize (g_src g).
    induction clicks as [|k l IH]; intros r Dr is H.
    + cbn in H. injection H as <-. constructor.
    + cbn [map demo_clicks] in H. rewrite (click_at m c fuel g vs r k M) in H. destruct (nth_error vs k) as [v|] eqn:N.
      * destruct (click_view m c v fuel r) as [[i r']| |] eqn:C; cbn [bind] in H; try discriminate.
        destruct (Gd v (nth_error_In _ _ N)) as (disc & total & i1 & p3 & p & p5 & n & kk & G).
        destruct (click_pictured m c (data s) v p3 (g_grid _ _ _ _ _ _ _ _ _ G) fuel r i r' Dr C) as (P & D').
        destruct (demo_clicks m c fuel g r' (map Z.of_nat l)) as [is'| |] eqn:C'; cbn [bind] in H; try discriminate. apply ret_inj in H. subst is.
        constructor; [rewrite N; exact P|]. eapply IH; eassumption.
      * cbn [bind] in H. destruct (demo_clicks m c fuel g r (map Z.of_nat l)) as [is'| |] eqn:C'; cbn [bind] in H; try discriminate. apply ret_inj in H. subst is.
        constructor; [rewrite N; reflexivity|]. eapply IH; eassumption.
  - intros c fuel s' k Ds En. rewrite (click_at m c fuel g vs s' k M). destruct (nth_error vs k) as [v|] eqn:N.
    + destruct (Gd v (nth_error_In _ _ N)) as (disc & total & i1 & p3 & p & p5 & n & kk & G).
      rewrite (click_panic m c (data s) v p3 (g_grid _ _ _ _ _ _ _ _ _ G) fuel s' Ds).
      * split; [intros H; exists v; auto|intros (v' & Ev & H); injection Ev as <-; exact H].
      * intros v' dec it out e [<-|[]]. apply En. eapply nth_error_In. exact N.
    + split; [discriminate|]. intros (v & Ev & _). discriminate.
Qed.

(** Where the points of the grid are in the picture. *)
Lemma orientation : forall w h mode, 2 <= w -> 2 <= h ->
  ((forall x y, 0 <= x < w -> 0 <= y < h -> scan_ij w h mode (y * w + x) = (x, y)) <-> flag 3 mode = false /\ flag 4 mode = false).
Proof.
  intros w h mode Hw Hh. unfold scan_ij. split.
  - intros H. destruct (flag 3 mode) eqn:F3, (flag 4 mode) eqn:F4; auto; exfalso.
    + pose proof (H 1 0 ltac:(lia) ltac:(lia)) as E. cbn -[Z.div Z.modulo] in E. replace (0 * w + 1) with 1 in E by lia. rewrite Z.div_small, Z.mod_small in E by lia. cbn in E. injection E; lia.
    + pose proof (H 1 0 ltac:(lia) ltac:(lia)) as E. replace (0 * w + 1) with 1 in E by lia. rewrite Z.div_small, Z.mod_small in E by lia. cbn in E. injection E; lia.
    + pose proof (H 0 1 ltac:(lia) ltac:(lia)) as E. replace (1 * w + 0) with w in E by lia. rewrite Z.div_same, Z.mod_same in E by lia. cbn in E. injection E; lia.
  - intros [F3 F4] x y Hx Hy. rewrite F3, F4. rewrite (Z.add_comm (y * w)), Z.div_add, Z.mod_add, Z.div_small, Z.mod_small by lia. rewrite ?Bool.andb_false_l. f_equal; lia.
Qed.
