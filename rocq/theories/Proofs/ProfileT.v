(** Builds with and without overflow checks: the command line tool, the example programs, the
    demo, the code tables. *)
From Coq Require Import Lia ZifyBool ZifyNat.
From Verif Require Import Model.Base Model.Helpers Model.Errors Model.F32 Model.F64 Model.Sections Model.Reader Model.Parser Model.Context Model.Product Model.Decoder Model.Session.
From Verif Require Import Model.Grid Model.Gaussian Model.Proj Model.Tools Model.Text Model.Tables Model.Cli Model.CliDecode Model.Programs Model.Demo.
From Verif Require Import Spec.ProfileS Proofs.BaseLemmas Proofs.ProfileP Proofs.ProfileD Proofs.ProfileG.

(** ** Products *)
Lemma su_surface p i : SU (read_surface_from Checked p i) (read_surface_from Wrapping p i).
Proof. unfold read_surface_from. su. Qed.
#[export] Hint Resolve su_surface : su.
Lemma su_surfaces p : SU (fixed_surfaces Checked p) (fixed_surfaces Wrapping p).
Proof. unfold fixed_surfaces, if_supported. su. Qed.
Lemma su_as_u32 x : SU (as_u32 Checked x) (as_u32 Wrapping x).
Proof. unfold as_u32. su. Qed.
#[export] Hint Resolve su_surfaces su_as_u32 : su.
Lemma su_identical x c : SU (is_identical_to Checked x c) (is_identical_to Wrapping x c).
Proof. unfold is_identical_to. su. Qed.

(** ** Listing *)
Lemma su_describe e v : SU (describe e Checked v) (describe e Wrapping v).
Proof. unfold describe. su. Qed.
Lemma su_points_of v : SU (cli_list_points Checked v) (cli_list_points Wrapping v).
Proof. unfold cli_list_points. su. Qed.
#[export] Hint Resolve su_describe su_points_of : su.
Lemma su_row e v : SU (list_row e Checked v) (list_row e Wrapping v).
Proof. unfold list_row. su. Qed.
Lemma su_dump e v : SU (dump_entry e Checked v) (dump_entry e Wrapping v).
Proof. unfold dump_entry. su. Qed.
#[export] Hint Resolve su_row su_dump : su.
Lemma su_views {A} (f f' : view -> outcome A) (H : forall v, SU (f v) (f' v)) g fuel : forall p, SU (for_views fuel g p f) (for_views fuel g p f').
Proof.
  induction fuel as [|fuel IH]; intros; [apply su_refl|]. cbn [for_views]. apply su_bind; [apply su_refl|]. intros [[[v|] p'] s]; [|apply su_refl]. apply su_bind; [apply H|]. intros. apply su_bind; [apply IH|]. intros. apply su_refl.
Qed.
Lemma su_all {A} (f f' : view -> outcome A) g : (forall v, SU (f v) (f' v)) -> SU (all_of g f) (all_of g f').
Proof. intros H. apply su_views, H. Qed.
Lemma su_list e color dump g : SU (list_text e Checked color dump g) (list_text e Wrapping color dump g).
Proof. unfold list_text. destruct dump; (apply su_bind; [apply su_all; auto with su|]; intros; apply su_refl). Qed.
Lemma su_lines dump g : SU (list_num_lines Checked dump g) (list_num_lines Wrapping dump g).
Proof. unfold list_num_lines. su. Qed.
Lemma su_rows l : forall i, SU (section_rows Checked i l) (section_rows Wrapping i l).
Proof. induction l as [|s l IH]; intros; [apply su_refl|]. cbn [section_rows]. apply su_bind; [apply su_arith|]. intros. apply su_bind; [apply IH|]. intros. apply su_refl. Qed.
#[export] Hint Resolve su_rows : su.
Lemma su_len o g k : SU (item_len Checked o g k) (item_len Wrapping o g k).
Proof. unfold item_len. su. Qed.
Lemma su_item e o color g k : SU (item_text e Checked o color g k) (item_text e Wrapping o color g k).
Proof. unfold item_text. su. Qed.
#[export] Hint Resolve su_len su_item : su.
Lemma su_iloop_text e o color h g items : SU (inspect_loop e Checked o color h g items) (inspect_loop e Wrapping o color h g items).
Proof. induction items as [|k items IH]; [apply su_refl|]. cbn [inspect_loop]. apply su_bind; [apply su_item|]. intros. apply su_bind; [apply IH|]. intros. apply su_refl. Qed.
Lemma su_inspect e o color g items : SU (inspect_text e Checked o color g items) (inspect_text e Wrapping o color g items).
Proof. apply su_iloop_text. Qed.
Lemma su_cloop o h g items : forall n, SU (count_loop Checked o h g items n) (count_loop Wrapping o h g items n).
Proof.
  induction items as [|k items IH]; intros; [apply su_refl|]. cbn [count_loop]. apply su_bind; [destruct h; [apply su_arith|apply su_refl]|]. intros. apply su_bind; [apply su_len|]. intros. apply su_bind; [apply su_arith|]. intros. apply IH.
Qed.
#[export] Hint Resolve su_cloop : su.
Lemma su_count o g items : SU (inspect_num_lines Checked o g items) (inspect_num_lines Wrapping o g items).
Proof. unfold inspect_num_lines. su. Qed.

(** ** Decoding *)
Lemma su_grib fuel s : SU (cli_grib Checked fuel s) (cli_grib Wrapping fuel s).
Proof. unfold cli_grib. su. Qed.
#[export] Hint Resolve su_grib : su.
Lemma su_write fuel tb : forall it1 it2 : iter f32, alike it1 it2 -> SU (write_values fuel tb it1) (write_values fuel tb it2).
Proof.
  induction fuel as [|fuel IH]; intros it1 it2 (S & s & f & g & -> & -> & H); [apply su_refl|]. cbn [write_values]. unfold next. cbn [istep icur ist].
  destruct (H s) as [E|E]; [rewrite E; left; reflexivity|]. rewrite E. destruct (f s) as [[[a|] s']| |]; cbn [bind]; try sr.
  apply su_bind; [|intros; apply su_refl]. apply IH, alike_mk, H.
Qed.
Lemma su_zip {A B} fuel : forall (it1 it2 : iter A) (l : list B), alike it1 it2 -> SU (zip_items fuel it1 l) (zip_items fuel it2 l).
Proof.
  induction fuel as [|fuel IH]; intros it1 it2 l (S & s & f & g & -> & -> & H); [apply su_refl|]. cbn [zip_items]. unfold next. cbn [istep icur ist].
  destruct (H s) as [E|E]; [rewrite E; left; reflexivity|]. rewrite E. destruct (f s) as [[[a|] s']| |]; cbn [bind]; try sr. destruct l as [|b l]; [apply su_refl|].
  apply su_bind; [|intros; apply su_refl]. apply IH, alike_mk, H.
Qed.
Lemma su_zloop {A B} fuel h : forall (a1 a2 : iter A) (b1 b2 : iter B), alike a1 a2 -> alike b1 b2 -> SU (zip_loop fuel a1 b1 h) (zip_loop fuel a2 b2 h).
Proof.
  induction fuel as [|fuel IH]; intros a1 a2 b1 b2 (S & s & f & g & -> & -> & H) (T & t & k & j & -> & -> & K); [apply su_refl|]. cbn [zip_loop]. unfold next. cbn [istep icur ist].
  destruct (H s) as [E|E]; [rewrite E; left; reflexivity|]. rewrite E. destruct (f s) as [[[a|] s']| |]; cbn [bind]; try sr.
  destruct (K t) as [F|F]; [rewrite F; left; reflexivity|]. rewrite F. destruct (k t) as [[[b|] t']| |]; cbn [bind]; try sr.
  apply su_bind; [|intros; apply su_refl]. apply IH; apply alike_mk; assumption.
Qed.
Lemma su_oa {A B E} (R : A -> A -> Prop) (x y : outcome (result A E)) (f g : result A E -> outcome B) :
  oa (res R) x y -> (forall e, SU (f (Err e)) (g (Err e))) -> (forall a b, R a b -> SU (f (Ok a)) (g (Ok b))) -> SU (bind x f) (bind y g).
Proof. intros [z| |[a|e] [b|e'] H] He Ho; cbn [bind]; try contradiction H; [apply su_panic|apply su_refl|apply Ho, H|cbn in H; subst; apply He]. Qed.
Lemma su_dview lm pl c gfuel fuel fmt s v : SU (cli_decode_view Checked lm pl c gfuel fuel fmt s v) (cli_decode_view Wrapping lm pl c gfuel fuel fmt s v).
Proof.
  unfold cli_decode_view. apply su_bind; [apply su_refl|]. intros p3. apply su_bind; [apply su_latlons|]. intros ll. apply su_bind; [apply su_from|]. intros [[d|e] s']; [|apply su_refl].
  eapply su_oa; [apply oa_dispatch|intros; apply su_refl|]. intros a b H. destruct fmt.
  - apply su_bind; [apply su_write, H|intros; apply su_refl].
  - apply su_bind; [apply su_write, H|intros; apply su_refl].
  - apply su_bind; [apply su_collect, H|]. intros l. destruct ll as [pts|[]]; try sr; (apply su_bind; [apply su_zip; auto with su|intros; apply su_refl]).
Qed.
#[export] Hint Resolve su_dview : su.
Lemma su_decode lm pl c rfuel gfuel fuel fmt s i : SU (cli_decode Checked lm pl c rfuel gfuel fuel fmt s i) (cli_decode Wrapping lm pl c rfuel gfuel fuel fmt s i).
Proof. unfold cli_decode. su. Qed.
Lemma alike_wrapper w : alike (wrapper_iter Checked w) (wrapper_iter Wrapping w).
Proof. destruct w; [apply alike_points|apply alike_refl]. Qed.
Lemma su_wsize w : SU (wrapper_size Checked w) (wrapper_size Wrapping w).
Proof. unfold wrapper_size. su. Qed.
#[export] Hint Resolve su_wsize : su.
Lemma su_nlines w l : SU (decode_num_lines Checked w l) (decode_num_lines Wrapping w l).
Proof. unfold decode_num_lines. su. Qed.
Lemma su_vtext lm pl c gfuel fuel sh color s v : SU (decode_view_text Checked lm pl c gfuel fuel sh color s v) (decode_view_text Wrapping lm pl c gfuel fuel sh color s v).
Proof.
  unfold decode_view_text. apply su_bind; [apply su_refl|]. intros p3. apply su_bind; [apply su_latlons|]. intros ll. apply su_bind; [apply su_from|]. intros [[d|e] s']; [|apply su_refl].
  eapply su_oa; [apply oa_dispatch|intros; apply su_refl|]. intros a b H. apply su_bind; [apply su_collect, H|]. intros l. cbv zeta.
  assert (K : forall w, SU (let! n := decode_num_lines Checked w l in let! l0 := zip_items fuel (wrapper_iter Checked w) l in Ret (@Ok _ cli_error (n, decode_lines sh color l0)))
    (let! n := decode_num_lines Wrapping w l in let! l0 := zip_items fuel (wrapper_iter Wrapping w) l in Ret (Ok (n, decode_lines sh color l0)))).
  { intros w. apply su_bind; [apply su_nlines|]. intros n. apply su_bind; [apply su_zip, alike_wrapper|]. intros. apply su_refl. }
  destruct ll as [pts|[]]; try sr; apply K.
Qed.
#[export] Hint Resolve su_vtext : su.
Lemma su_dtext lm pl c rfuel gfuel fuel sh color s i : SU (decode_text Checked lm pl c rfuel gfuel fuel sh color s i) (decode_text Wrapping lm pl c rfuel gfuel fuel sh color s i).
Proof. unfold decode_text. su. Qed.

(** ** The example programs *)
Lemma su_find e hours v : SU (find_layer e Checked hours v) (find_layer e Wrapping hours v).
Proof. unfold find_layer. su. Qed.
Lemma su_finds e fuel s hours : SU (find_layers e Checked fuel s hours) (find_layers e Wrapping fuel s hours).
Proof. unfold find_layers. apply su_bind; [apply su_read|]. intros [g|x]; [|apply su_refl]. apply su_bind; [apply su_all, su_find|]. intros. apply su_refl. Qed.
Lemma su_layer e v : SU (list_layer e Checked v) (list_layer e Wrapping v).
Proof. unfold list_layer. su. Qed.
Lemma su_layers e fuel s : SU (list_layers e Checked fuel s) (list_layers e Wrapping fuel s).
Proof. unfold list_layers. apply su_bind; [apply su_read|]. intros [g|x]; [|apply su_refl]. apply su_bind; [apply su_all, su_layer|]. intros. apply su_refl. Qed.
Lemma su_lview lm pl c gfuel fuel sh s v : SU (decode_layer_view Checked lm pl c gfuel fuel sh s v) (decode_layer_view Wrapping lm pl c gfuel fuel sh s v).
Proof.
  unfold decode_layer_view. apply su_bind; [apply su_refl|]. intros p3. apply su_bind; [apply su_latlons|]. intros [pts|e]; [|apply su_refl]. apply su_bind; [apply su_from|]. intros [[d|e] s']; [|apply su_refl].
  eapply su_oa; [apply oa_dispatch|intros; apply su_refl|]. intros a b H. apply su_bind; [apply su_zloop; [apply alike_points|exact H]|]. intros. apply su_refl.
Qed.
#[export] Hint Resolve su_lview : su.
Lemma su_dlayer lm pl c rfuel gfuel fuel sh s i : SU (decode_layer Checked lm pl c rfuel gfuel fuel sh s i) (decode_layer Wrapping lm pl c rfuel gfuel fuel sh s i).
Proof. unfold decode_layer. su. Qed.
Lemma su_chloop c vfuel fuel : forall g s p, SU (check_loop Checked c vfuel fuel g s p) (check_loop Wrapping c vfuel fuel g s p).
Proof.
  induction fuel as [|fuel IH]; intros; [apply su_refl|]. cbn [check_loop]. apply su_bind; [apply su_refl|]. intros [[[v|] p'] x]; [|apply su_refl]. apply su_bind; [apply su_from|]. intros [[d|e] s']; [|apply su_refl].
  eapply su_oa; [apply oa_dispatch|intros; apply su_refl|]. intros a b H. apply su_bind; [apply su_collect, H|]. intros. apply IH.
Qed.
#[export] Hint Resolve su_chloop : su.
Lemma su_chfile c rfuel vfuel s : SU (check_decoding_file Checked c rfuel vfuel s) (check_decoding_file Wrapping c rfuel vfuel s).
Proof. unfold check_decoding_file. su. Qed.
Lemma su_check c rfuel vfuel files : SU (check_decoding Checked c rfuel vfuel files) (check_decoding Wrapping c rfuel vfuel files).
Proof. induction files as [|s files IH]; [apply su_refl|]. cbn [check_decoding]. apply su_bind; [apply su_chfile|]. intros [u|e]; [apply IH|apply su_refl]. Qed.

(** ** The demo *)
Lemma su_drow e v : SU (demo_row e Checked v) (demo_row e Wrapping v).
Proof. unfold demo_row. su. Qed.
Lemma su_dtable e g : SU (demo_table e Checked g) (demo_table e Wrapping g).
Proof. unfold demo_table. apply su_bind; [apply su_size|]. intros. apply su_bind; [apply su_all, su_drow|]. intros. apply su_refl. Qed.
Lemma su_click c fuel g s i : SU (demo_click Checked c fuel g s i) (demo_click Wrapping c fuel g s i).
Proof.
  unfold demo_click. apply su_bind; [apply su_refl|]. intros r. destruct (fst (fst r)) as [v|]; [|apply su_refl]. apply su_bind; [apply su_refl|]. intros p3. apply su_bind; [apply su_shape|]. intros [[w h]|e]; [|apply su_refl]. apply su_bind; [apply su_from|]. intros [[d|e] s']; [|apply su_refl].
  eapply su_oa; [apply oa_dispatch|intros; apply su_refl|]. intros a b H. apply su_bind; [apply su_collect, H|]. intros. apply su_refl.
Qed.
Lemma su_clicks c fuel g l : forall s, SU (demo_clicks Checked c fuel g s l) (demo_clicks Wrapping c fuel g s l).
Proof. induction l as [|k l IH]; intros; [apply su_refl|]. cbn [demo_clicks]. apply su_bind; [apply su_click|]. intros [i s']. apply su_bind; [apply IH|]. intros. apply su_refl. Qed.

(** ** Code tables *)
Lemma su_range r : SU (range_size Checked r) (range_size Wrapping r).
Proof. unfold range_size. su. Qed.
#[export] Hint Resolve su_range : su.
Lemma su_vec rows : forall out n e, SU (to_vec_loop Checked rows out n e) (to_vec_loop Wrapping rows out n e).
Proof. induction rows as [|[id s] rows IH]; intros; [apply su_refl|]. cbn [to_vec_loop]. cbv zeta. su; apply IH. Qed.
Lemma su_tovec rows : SU (to_vec Checked rows) (to_vec Wrapping rows).
Proof. apply su_vec. Qed.
#[export] Hint Resolve su_tovec : su.
Lemma su_constants d : SU (constants Checked d) (constants Wrapping d).
Proof. induction d as [|[k t] d IH]; [apply su_refl|]. cbn [constants]. apply su_bind; [apply su_tovec|]. intros. apply su_bind; [exact IH|]. intros. apply su_refl. Qed.
Lemma su_cct d : SU (cct_constants Checked d) (cct_constants Wrapping d).
Proof. induction d as [|[k t] d IH]; [apply su_refl|]. cbn [cct_constants]. apply su_bind; [apply su_tovec|]. intros. apply su_bind; [exact IH|]. intros. apply su_refl. Qed.
Lemma su_build ccts files :
  match build_tables Checked ccts files with
  | Some x => exists y, build_tables Wrapping ccts files = Some y /\ SU x y
  | None => build_tables Wrapping ccts files = None
  end.
Proof.
  unfold build_tables. destruct (fold_left _ ccts _); [|reflexivity]. destruct (fold_left _ files _); [|reflexivity]. eexists. split; [reflexivity|]. apply su_bind; [apply su_cct|]. intros. apply su_bind; [apply su_constants|]. intros. apply su_refl.
Qed.

(** ** Calls of the JPEG 2000 library *)
From Verif Require Import Model.Opj.
Lemma su_stream buf o null nb : SU (opj_stream_read Checked buf o null nb) (opj_stream_read Wrapping buf o null nb).
Proof. unfold opj_stream_read. su. Qed.
Lemma su_process {A} stream buf (p : process A) : forall o, snd (run_process Checked stream buf o p) = Panic \/ run_process Wrapping stream buf o p = run_process Checked stream buf o p.
Proof.
  induction p as [a|null nb k IH]; intros o; [right; reflexivity|]. cbn [run_process]. destruct stream; [|apply IH]. destruct (su_stream buf o null (Z.of_N nb)) as [E|E]; [rewrite E; left; reflexivity|]. rewrite E.
  destruct (opj_stream_read Checked buf o null (Z.of_N nb)) as [[out o']| |]; [|right; reflexivity|right; reflexivity]. destruct (IH out o') as [F|F].
  - left. destruct (run_process Checked true buf o' (k out)) as [e r]. cbn in F |- *. exact F.
  - right. rewrite F. reflexivity.
Qed.
Lemma su_opj lib buf : snd (opj_decode lib Checked buf) = Panic \/ opj_decode lib Wrapping buf = opj_decode lib Checked buf.
Proof.
  unfold opj_decode. destruct (lib_codec lib); cbn [negb]; [|right; reflexivity]. destruct (lib_setup lib); cbn [negb]; [|right; reflexivity]. cbv zeta.
  destruct (su_process (lib_stream lib) buf (lib_header lib) 0) as [E|E].
  - left. destruct (run_process Checked _ buf 0 (lib_header lib)) as [e r]. cbn in E. subst r. reflexivity.
  - rewrite E. destruct (run_process Checked _ buf 0 (lib_header lib)) as [e [[[i|] o]| |]]; try (right; reflexivity).
    destruct (su_process (lib_stream lib) buf (lib_body lib) o) as [F|F].
    + left. destruct (run_process Checked _ buf o (lib_body lib)) as [e' r]. cbn in F. subst r. reflexivity.
    + rewrite F. destruct (run_process Checked _ buf o (lib_body lib)) as [e' [[[|i] o']| |]]; try (right; reflexivity).
      unfold image_part. destruct (su_samples i) as [K|K]; rewrite K; [left|right]; reflexivity.
Qed.
