(** C85: the demo in a browser. *)
From Coq Require Import Lia ZifyBool ZifyNat.
From Verif Require Import Model.Base Model.Errors Model.F32 Model.Bitmap Model.Sections Model.Reader Model.Parser Model.Context Model.Product Model.Grid Model.Decoder Model.Word Model.WordDecode Model.Cli Model.Demo Model.Browser.
From Verif Require Import Spec.Bits Spec.ReaderS Spec.DecodeS Spec.SessionS Spec.ProgramsS Spec.WordS Spec.BrowserS.
From Verif Require Import Proofs.BaseLemmas Proofs.KeepP Proofs.ContextX Proofs.SessionX Proofs.ToolsX Proofs.ProgramsX Proofs.CliP Proofs.CliX Proofs.DecodeP Proofs.WordX Proofs.WordDecodeX Proofs.WordDecodeF.
From Verif Require Proofs.DemoX Proofs.ViewX.
Ltac Zify.zify_post_hook ::= Z.div_mod_to_equations.

Lemma collect_fuel A : forall fuel (it : iter A) l, collect fuel it = Ret l -> (length l < fuel)%nat.
Proof.
  induction fuel as [|fuel IH]; intros it l H; [discriminate|]. cbn [collect] in H. destruct (next it) as [[[a|] it']| |]; cbn [bind] in H; try discriminate.
  - destruct (collect fuel it') as [l'| |] eqn:C; cbn [bind] in H; try discriminate. apply IH in C. assert (l = a :: l') by congruence. subst. cbn [length]. lia.
  - assert (l = []) by congruence. subst. cbn. lia.
Qed.
Lemma collect_crashes A : forall fuel (it : iter A), collect fuel it = Panic -> exists l, Run it l Crash /\ (length l < fuel)%nat.
Proof.
  induction fuel as [|fuel IH]; intros it H; [discriminate|]. cbn [collect] in H. destruct (next it) as [[[a|] it']| |] eqn:N; cbn [bind] in H; try discriminate.
  - destruct (collect fuel it') as [l| |] eqn:C; cbn [bind] in H; try discriminate. destruct (IH it' C) as (l & R & L). exists (a :: l). split; [eapply Run_cons; eassumption|cbn [length]; lia].
  - exists []. split; [apply Run_crash; exact N|cbn; lia].
Qed.

Section File.
  Context (m : mode) (rfuel : nat) (d : list byte) (p : Z) (g : grib2).
  Context (Hl : zlen d < 2 ^ 28) (Hp : 0 <= p <= zlen d) (Hr : grib2_read m rfuel (MkSrc d p []) = Ret (Ok g)) (H7 : m = Wrapping -> Forall seven_ok (g_sections g)).

  Lemma src_data : data (g_src g) = d.
  Proof. exact (reader_data m rfuel _ g Hr ltac:(cbn [data]; lia) ltac:(cbn [pos]; lia)). Qed.
  (** The decoder of a submessage: whatever was done with the reader. *)
  Definition decoder_of (v : view) : result decoder grib_error :=
    let dec b := @Ok decoder grib_error (MkDecoder (grid_points d v) (packed_points d v) (packing_template d v) (packing d v) b (packed_data d v)) in
    if bitmap_indicator d v =? 0 then dec (bitmap_octets d v)
    else if bitmap_indicator d v =? 255 then dec (create_bitmap_for_nonnullable_data (grid_points d v))
    else Err (EDecode BitMapIndicatorUnsupported).
  Lemma decoder_is w v : In w (g_subs g) -> make_view g w = Some v -> forall s, data s = d -> exists s', data s' = d /\ decoder_from m s v = Ret (decoder_of v, s').
  Proof.
    intros Hw Hv [d' q sc] Ed. cbn [data] in Ed. subst d'. destruct (file_within m rfuel d p g ltac:(lia) Hp Hr H7) as (F7 & _). rewrite Forall_forall in F7.
    destruct (ViewX.file_views m rfuel _ g Hr ltac:(cbn [data]; lia) ltac:(cbn [pos data]; lia) w v Hw Hv) as (_ & _ & _ & _ & _ & _ & (I7 & K7 & N7)).
    exact (decoder_spec m rfuel _ g w v Hr ltac:(cbn [data]; lia) ltac:(cbn [pos data]; lia) Hw Hv (F7 _ I7 N7) m q sc).
  Qed.
  Lemma decoder_template v dec : decoder_of v = Ok dec -> d_template dec = packing_template d v /\ d_sect5 dec = packing d v /\ d_sect7 dec = packed_data d v.
  Proof.
    unfold decoder_of. destruct (bitmap_indicator d v =? 0); [|destruct (bitmap_indicator d v =? 255); [|discriminate]].
    - intros H. match type of H with Ok ?x = _ => assert (dec = x) by congruence end. subst dec. auto.
    - intros H. match type of H with Ok ?x = _ => assert (dec = x) by congruence end. subst dec. auto.
  Qed.

  Context (vs : list view) (M : all_views g vs).
  Lemma in_subs k v : nth_error vs k = Some v -> exists w, In w (g_subs g) /\ make_view g w = Some v.
  Proof. intros N. pose proof (all_views_nth g vs k M) as X. rewrite N in X. destruct X as (w & A & B). exists w. split; [eapply nth_error_In; exact A|exact B]. Qed.

  (** A click on a row. *)
  Definition click_on (c : codecs) (fuel : nat) (v : view) (s : src) : outcome (shown * (src * bool)) :=
    match (let! p3 := v_grid_def v in sub_grid_shape m p3) with
    | Diverge => Diverge
    | Panic => Ret (Trap, (s, true))
    | Ret (Err _) => Ret (Shown None, (s, false))
    | Ret (Ok (w, h)) =>
        match word_decoder U32 m s v with
        | Diverge => Diverge
        | Panic => Ret (Trap, (s, true))
        | Ret (Err _, s') => Ret (Trap, (s', false))
        | Ret (Ok d, s') =>
            match (try! it := wdispatch U32 true c m d in let! l := collect fuel it in Ret (Ok l)) with
            | Diverge => Diverge
            | Panic | Ret (Err _) => Ret (Trap, (s', false))
            | Ret (Ok out) =>
                match image_data (flat_map jma_amedas_temperature out) (w mod 2 ^ 32) (h mod 2 ^ 32) with
                | Some i => Ret (Shown (Some i), (s', false))
                | None => Ret (Trap, (s', false))
                end
            end
        end
    end.
  Lemma click_row c fuel s k : browser_click U32 m c fuel g s false (Z.of_nat k) = match nth_error vs k with Some v => click_on c fuel v s | None => Ret (Shown None, (s, false)) end.
  Proof. unfold browser_click, sub_iter_nth. rewrite (next_at g vs k false M). destruct (nth_error vs k); reflexivity. Qed.

  (** A click gives the reader back, if the shape of the grid does not panic, and shows the same in
      whatever state the reader is. *)
  Lemma click_free c fuel v s s' : (exists k, nth_error vs k = Some v) -> (let! p3 := v_grid_def v in sub_grid_shape m p3) <> Panic -> data s = d -> data s' = d ->
    match click_on c fuel v s with
    | Ret (r, (t, b)) => b = false /\ data t = d /\ exists t', click_on c fuel v s' = Ret (r, (t', false))
    | Panic => False
    | Diverge => click_on c fuel v s' = Diverge
    end.
  Proof.
    intros (k & N) Sh Ds Ds'. destruct (in_subs k v N) as (w & Hw & Hv). unfold click_on. destruct (let! p3 := v_grid_def v in sub_grid_shape m p3) as [[[a b]|x]| |]; [| |congruence|reflexivity].
    2: { split; [reflexivity|]. split; [exact Ds|]. exists s'. reflexivity. }
    rewrite !(WordX.decoder_same m rfuel d p g ltac:(lia) Hp Hr H7 w v Hw Hv). destruct (decoder_is w v Hw Hv s Ds) as (t & Dt & ->). destruct (decoder_is w v Hw Hv s' Ds') as (t' & Dt' & ->).
    destruct (decoder_of v) as [dec|x]; [|split; [reflexivity|]; split; [exact Dt|]; exists t'; reflexivity].
    destruct (try! it := wdispatch U32 true c m dec in let! l := collect fuel it in Ret (Ok l)) as [[out|x]| |]; [destruct (image_data _ _ _)| | |reflexivity]; (split; [reflexivity|]; split; [exact Dt|]; exists t'; reflexivity).
  Qed.
  Lemma shape_quiet e t : demo_table e m g = Ret t -> forall v, In v vs -> (let! p3 := v_grid_def v in sub_grid_shape m p3) <> Panic.
  Proof.
    intros T v Hv. unfold demo_table in T. destruct (sub_iter_size m g 0); cbn [bind] in T; try discriminate. rewrite (all_of_map _ g vs _ M) in T. cbn [bind] in T.
    destruct (mapM (demo_row e m) vs) as [rows| |] eqn:R; cbn [bind] in T; try discriminate. apply mapM_ret in R.
    assert (X : exists cells, demo_row e m v = Ret cells). { clear -R Hv. induction R as [|a b l l' H R IH]; [destruct Hv|]. destruct Hv as [<-|Hv]; eauto. }
    destruct X as (cells & X). unfold demo_row in X. destruct (v_prod_def v) as [pp| |]; cbn [bind] in X; try discriminate. destruct (parameter_text e v pp); cbn [bind] in X; try discriminate.
    destruct (process_text e pp); cbn [bind] in X; try discriminate. destruct (Product.forecast_time pp); cbn [bind] in X; try discriminate. destruct (Product.fixed_surfaces m pp) as [fs| |]; cbn [bind] in X; try discriminate.
    destruct (match fs with Some (a, b) => (demo_surface e a, demo_surface e b) | None => ([], []) end). destruct (v_grid_def v) as [p3| |]; cbn [bind] in X; try discriminate. cbn [bind].
    destruct (grid_num_points p3); cbn [bind] in X; try discriminate. destruct (v_repr_def v) as [p5| |]; cbn [bind] in X; try discriminate. destruct (repr_num_points p5); cbn [bind] in X; try discriminate.
    unfold sub_grid_shape. destruct (grid_of_payload m p3) as [[gr|]| |]; cbn [bind] in *; congruence.
  Qed.

  Theorem history e t : demo_table e m g = Ret t -> forall c fuel clicks rs,
    browser_clicks U32 m c fuel g (g_src g) false (map Z.of_nat clicks) = Ret rs <->
    Forall2 (fun k r => exists s', browser_click U32 m c fuel g (g_src g) false (Z.of_nat k) = Ret (r, (s', false))) clicks rs.
  Proof.
    intros T c fuel clicks. pose proof src_data as D0. assert (D1 : data (g_src g) = d) by exact D0. revert D1. generalize (g_src g) at 1 2 as s.
    induction clicks as [|k l IH]; intros s Ds rs.
    - cbn. split; [intros H; assert (rs = []) by congruence; subst; constructor|intros H; inversion H; reflexivity].
    - cbn [map browser_clicks]. rewrite click_row. destruct (nth_error vs k) as [v|] eqn:N.
      + pose proof (click_free c fuel v s (g_src g) (ex_intro _ k N) (shape_quiet e t T v (nth_error_In _ _ N)) Ds D0) as X.
        destruct (click_on c fuel v s) as [[r [s1 b]]| |] eqn:C; [|contradiction|].
        * destruct X as (-> & D1 & t' & X). cbn [bind fst snd]. split.
          -- intros H. destruct (browser_clicks U32 m c fuel g s1 false (map Z.of_nat l)) as [rs'| |] eqn:B; cbn [bind] in H; try discriminate. assert (rs = r :: rs') by congruence. subst rs.
             constructor; [exists t'; rewrite click_row, N; exact X|]. apply (IH s1 D1). exact B.
          -- intros H. inversion H as [|k0 r0 l0 rs' (t2 & H1) H2]. subst. apply (IH s1 D1) in H2. rewrite H2. cbn [bind]. rewrite click_row, N, X in H1. congruence.
        * cbn [bind]. split; [discriminate|]. intros H. inversion H as [|k0 r0 l0 rs' (t2 & H1) H2]. subst. rewrite click_row, N, X in H1. discriminate.
      + cbn [bind fst snd]. split.
        * intros H. destruct (browser_clicks U32 m c fuel g s false (map Z.of_nat l)) as [rs'| |] eqn:B; cbn [bind] in H; try discriminate. assert (rs = Shown None :: rs') by congruence. subst rs.
          constructor; [exists (g_src g); rewrite click_row, N; reflexivity|]. apply (IH s Ds). exact B.
        * intros H. inversion H as [|k0 r0 l0 rs' (t2 & H1) H2]. subst. apply (IH s Ds) in H2. rewrite H2. cbn [bind]. rewrite click_row, N in H1. congruence.
  Qed.

  Lemma fits_small c w v s dec s' : In w (g_subs g) -> make_view g w = Some v -> browser_fits c d v -> data s = d -> decoder_from m s v = Ret (Ok dec, s') ->
    small_data c dec /\ (d_template dec = 200 -> digits_fit dec).
  Proof.
    intros Hw Hv (A & B & C) Ds E. destruct s as [d' q sc]. cbn [data] in Ds. subst d'. split; [exact (file_small m rfuel d p g c Hl Hp Hr H7 w v Hw Hv A B m q sc dec s' E)|].
    destruct (decoder_is w v Hw Hv (MkSrc d q sc) eq_refl) as (t & _ & E'). rewrite E' in E. assert (Q : decoder_of v = Ok dec) by congruence. destruct (decoder_template v dec Q) as (T & S5 & S7).
    rewrite T. intros T2. specialize (C T2). unfold digits_fit in *. rewrite S5, S7. exact C.
  Qed.

  (** What the demo shows on 64 bits is shown. *)
  Theorem shows_same c fuel s k i s' : data s = d -> (forall v, nth_error vs k = Some v -> browser_fits c d v /\ packing_template d v <> 40) ->
    demo_click m c fuel g s (Z.of_nat k) = Ret (i, s') -> browser_click U32 m c fuel g s false (Z.of_nat k) = Ret (Shown i, (s', false)).
  Proof.
    intros Ds Hf H. rewrite (DemoX.click_at m c fuel g vs s k M) in H. rewrite click_row. destruct (nth_error vs k) as [v|] eqn:N; [|assert (i = None) by congruence; assert (s = s') by congruence; subst; reflexivity].
    destruct (Hf v eq_refl) as (Fi & T40). destruct (in_subs k v N) as (w & Hw & Hv). unfold DemoX.click_view in H. unfold click_on. destruct (v_grid_def v) as [p3| |]; cbn [bind] in *; try discriminate.
    destruct (sub_grid_shape m p3) as [[[a b]|x]| |]; cbn [bind] in H; try discriminate; [|assert (i = None) by congruence; assert (s = s') by congruence; subst; reflexivity].
    rewrite (WordX.decoder_same m rfuel d p g ltac:(lia) Hp Hr H7 w v Hw Hv). destruct (decoder_from m s v) as [[[dec|x] s1]| |] eqn:E; cbn [bind] in H; try discriminate.
    destruct (fits_small c w v s dec s1 Hw Hv Fi Ds E) as (Sm & Dg). destruct (decoder_is w v Hw Hv s Ds) as (t & _ & E'). rewrite E' in E. assert (Q : decoder_of v = Ok dec) by congruence.
    destruct (decoder_template v dec Q) as (T & _). rewrite (wasm_other U32 c m dec) by congruence.
    destruct (dispatch c m dec) as [[it|x]| |] eqn:Di; cbn [bind] in H; try discriminate. destruct (dispatch_ok c m dec it Sm Dg Di) as (it' & -> & Nr). cbn [bind].
    destruct (collect fuel it) as [out| |] eqn:Co; cbn [bind] in H; try discriminate. pose proof (collect_fuel _ _ _ _ Co) as Lf. apply collect_Run in Co.
    assert (R : Run it' out End) by (apply Nr; auto). rewrite (collect_Run' _ it' out End R eq_refl fuel Lf). cbn [bind].
    destruct (image_data _ _ _) as [im|]; [|discriminate]. assert (i = Some im) by congruence. assert (s1 = s') by congruence. subst. reflexivity.
  Qed.
  (** A panic on 64 bits is a trap. *)
  Theorem traps_same e t c fuel s k v : demo_table e m g = Ret t -> data s = d -> nth_error vs k = Some v -> browser_fits c d v -> packing_template d v <> 40 ->
    demo_click m c fuel g s (Z.of_nat k) = Panic -> m = Checked \/ (exists x, decoding m c d v (Err x)) ->
    exists s', browser_click U32 m c fuel g s false (Z.of_nat k) = Ret (Trap, (s', false)).
  Proof.
    intros T Ds N Fi T40 H Why. rewrite (DemoX.click_at m c fuel g vs s k M), N in H. rewrite click_row, N. destruct (in_subs k v N) as (w & Hw & Hv).
    pose proof (shape_quiet e t T v (nth_error_In _ _ N)) as Sh. unfold DemoX.click_view in H. unfold click_on. destruct (v_grid_def v) as [p3| |]; cbn [bind] in *; try congruence.
    destruct (sub_grid_shape m p3) as [[[a b]|x]| |]; cbn [bind] in H; try congruence.
    rewrite (WordX.decoder_same m rfuel d p g ltac:(lia) Hp Hr H7 w v Hw Hv). destruct (decoder_is w v Hw Hv s Ds) as (s1 & D1 & E'). rewrite E' in H |- *. cbn [bind] in H. destruct (decoder_of v) as [dec|x] eqn:Q; [|exists s1; reflexivity].
    destruct (fits_small c w v s dec s1 Hw Hv Fi Ds E') as (Sm & Dg). destruct (decoder_template v dec Q) as (T5 & _). rewrite (wasm_other U32 c m dec) by congruence.
    destruct (dispatch c m dec) as [[it|x]| |] eqn:Di; cbn [bind] in H; try discriminate.
    - destruct (dispatch_ok c m dec it Sm Dg Di) as (it' & -> & Nr). cbn [bind]. destruct (collect fuel it) as [out| |] eqn:Co; cbn [bind] in H; try discriminate.
      + pose proof (collect_fuel _ _ _ _ Co) as Lf. apply collect_Run in Co. assert (R : Run it' out End) by (apply Nr; auto). rewrite (collect_Run' _ it' out End R eq_refl fuel Lf). cbn [bind].
        destruct (image_data _ _ _) as [im|]; [discriminate|]. exists s1. reflexivity.
      + destruct Why as [Why|(x & Why)].
        * destruct (collect_crashes _ _ _ Co) as (l & R & Lf). assert (R' : Run it' l Crash) by (apply Nr; auto). rewrite (collect_crash _ it' l Crash R' eq_refl fuel Lf). cbn [bind]. exists s1. reflexivity.
        * exfalso. pose proof (decode_history m d v s Ds) as DH. destruct Why as [Why|(dec' & Why & K)]; rewrite Why in DH; destruct DH as (s2 & DH & _); rewrite E' in DH; [congruence|]. assert (dec' = dec) by congruence. subst. congruence.
    - rewrite dispatch_not_ok by (try assumption; congruence). rewrite Di. cbn [bind]. exists s1. reflexivity.
    - rewrite dispatch_not_ok by (try assumption; congruence). rewrite Di. cbn [bind]. exists s1. reflexivity.
  Qed.
  (** JPEG 2000 data are not decoded in a browser. *)
  Theorem jpeg_traps c fuel s k v i s' : data s = d -> nth_error vs k = Some v -> packing_template d v = 40 ->
    demo_click m c fuel g s (Z.of_nat k) = Ret (Some i, s') -> exists s'', browser_click U32 m c fuel g s false (Z.of_nat k) = Ret (Trap, (s'', false)).
  Proof.
    intros Ds N T40 H. rewrite (DemoX.click_at m c fuel g vs s k M), N in H. rewrite click_row, N. destruct (in_subs k v N) as (w & Hw & Hv).
    unfold DemoX.click_view in H. unfold click_on. destruct (v_grid_def v) as [p3| |]; cbn [bind] in *; try congruence.
    destruct (sub_grid_shape m p3) as [[[a b]|x]| |]; cbn [bind] in H; try congruence.
    rewrite (WordX.decoder_same m rfuel d p g ltac:(lia) Hp Hr H7 w v Hw Hv). destruct (decoder_is w v Hw Hv s Ds) as (s1 & D1 & E'). rewrite E' in H |- *. cbn [bind] in H. destruct (decoder_of v) as [dec|x] eqn:Q; [|exists s1; reflexivity].
    destruct (decoder_template v dec Q) as (T5 & _). rewrite (wasm_jpeg U32 c m dec) by congruence. cbn [bind]. exists s1. reflexivity.
  Qed.
End File.

(** For the submessages of the file. *)
Lemma file_all m rfuel d p g : zlen d < 2 ^ 28 -> 0 <= p <= zlen d -> grib2_read m rfuel (MkSrc d p []) = Ret (Ok g) -> exists vs, all_views g vs.
Proof. intros Hl Hp Hr. destruct (file_good m rfuel _ g Hr ltac:(cbn [data]; lia) ltac:(cbn [data pos]; lia)) as (ms & us & vs & _ & _ & _ & _ & _ & M & _). exists vs. exact M. Qed.
Lemma view_nth g vs k v : all_views g vs -> (nth_error vs k = Some v <-> exists w, nth_error (g_subs g) k = Some w /\ make_view g w = Some v).
Proof.
  intros M. pose proof (all_views_nth g vs k M) as X. destruct (nth_error vs k) as [v'|].
  - destruct X as (w & A & B). split; [intros E; exists w; split; congruence|intros (w' & A' & B'); congruence].
  - split; [discriminate|]. intros (w & A & _). congruence.
Qed.
Theorem file_history : forall m rfuel d p g, zlen d < 2 ^ 28 -> 0 <= p <= zlen d -> grib2_read m rfuel (MkSrc d p []) = Ret (Ok g) -> (m = Wrapping -> Forall seven_ok (g_sections g)) ->
  forall e t, demo_table e m g = Ret t -> forall c fuel clicks rs,
  browser_clicks U32 m c fuel g (g_src g) false (map Z.of_nat clicks) = Ret rs <->
  Forall2 (fun k r => exists s', browser_click U32 m c fuel g (g_src g) false (Z.of_nat k) = Ret (r, (s', false))) clicks rs.
Proof. intros m rfuel d p g Hl Hp Hr H7 e t T. destruct (file_all m rfuel d p g Hl Hp Hr) as (vs & M). exact (history m rfuel d p g Hl Hp Hr H7 vs M e t T). Qed.
Theorem file_shows : forall m rfuel d p g, zlen d < 2 ^ 28 -> 0 <= p <= zlen d -> grib2_read m rfuel (MkSrc d p []) = Ret (Ok g) -> (m = Wrapping -> Forall seven_ok (g_sections g)) ->
  word_read U32 m rfuel (MkSrc d p []) = Ret (Ok g) /\
  forall c fuel s k i s', data s = d -> (forall w v, nth_error (g_subs g) k = Some w -> make_view g w = Some v -> browser_fits c d v /\ packing_template d v <> 40) ->
  demo_click m c fuel g s (Z.of_nat k) = Ret (i, s') -> browser_click U32 m c fuel g s false (Z.of_nat k) = Ret (Shown i, (s', false)).
Proof.
  intros m rfuel d p g Hl Hp Hr H7. split; [apply WordX.read_same; auto; lia|]. destruct (file_all m rfuel d p g Hl Hp Hr) as (vs & M). intros c fuel s k i s' Ds Hf.
  apply (shows_same m rfuel d p g Hl Hp Hr H7 vs M); [exact Ds|]. intros v N. apply (view_nth g vs k v M) in N as (w & A & B). eauto.
Qed.
Theorem file_traps : forall m rfuel d p g, zlen d < 2 ^ 28 -> 0 <= p <= zlen d -> grib2_read m rfuel (MkSrc d p []) = Ret (Ok g) -> (m = Wrapping -> Forall seven_ok (g_sections g)) ->
  forall c fuel s k w v, data s = d -> nth_error (g_subs g) k = Some w -> make_view g w = Some v ->
  (forall e t, demo_table e m g = Ret t -> browser_fits c d v -> packing_template d v <> 40 -> demo_click m c fuel g s (Z.of_nat k) = Panic -> m = Checked \/ (exists x, decoding m c d v (Err x)) ->
     exists s', browser_click U32 m c fuel g s false (Z.of_nat k) = Ret (Trap, (s', false))) /\
  (forall i s', packing_template d v = 40 -> demo_click m c fuel g s (Z.of_nat k) = Ret (Some i, s') -> exists s'', browser_click U32 m c fuel g s false (Z.of_nat k) = Ret (Trap, (s'', false))).
Proof.
  intros m rfuel d p g Hl Hp Hr H7 c fuel s k w v Ds A B. destruct (file_all m rfuel d p g Hl Hp Hr) as (vs & M). assert (N : nth_error vs k = Some v) by (apply (view_nth g vs k v M); eauto). split.
  - intros e t T Fi T40. exact (traps_same m rfuel d p g Hl Hp Hr H7 vs M e t c fuel s k v T Ds N Fi T40).
  - intros i s' T40. exact (jpeg_traps m rfuel d p g Hl Hp Hr H7 vs M c fuel s k v i s' Ds N T40).
Qed.

(** While the borrow is held. *)
Lemma held_traps : forall u m c fuel g s k w v, nth_error (g_subs g) k = Some w -> make_view g w = Some v ->
  browser_click u m c fuel g s true (Z.of_nat k) = Ret (Trap, (s, true)).
Proof.
  intros u m c fuel g s k w v Hw Hv. unfold browser_click, sub_iter_nth, sub_iter_next.
  assert (G : get (g_subs g) (Z.of_nat k) = Some w) by (unfold get; replace (0 <=? Z.of_nat k) with true by lia; rewrite Nat2Z.id; exact Hw). rewrite G, Hv. reflexivity.
Qed.
