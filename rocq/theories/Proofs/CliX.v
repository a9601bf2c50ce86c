(** gribber list, inspect and info. *)
From Coq Require Import Lia ZifyBool ZifyNat Strings.String.
From Verif Require Import Model.Base Model.Helpers Model.Errors Model.F64 Model.Sections Model.Reader Model.Parser Model.Context Model.Product Model.Grid Model.Tools Model.Text Model.Tables Model.Cli.
From Verif Require Import Spec.ToolsS Spec.ReaderS Spec.ParserS Spec.ContextS.
From Verif Require Import Proofs.BaseLemmas Proofs.ReaderP Proofs.FileP Proofs.ToolsP Proofs.TextP Proofs.ToolsX Proofs.ContextX Proofs.ViewX Proofs.BoundX Proofs.CliP.
From Verif Require Import Spec.CliS.
Ltac Zify.zify_post_hook ::= Z.div_mod_to_equations.

(** ** Nothing loops *)

Definition quiet {A} (x : outcome A) : Prop := x <> Diverge.
Lemma q_bind A B (x : outcome A) (f : A -> outcome B) : quiet x -> (forall a, quiet (f a)) -> quiet (bind x f).
Proof. unfold quiet. intros H1 H2. destruct x; cbn [bind]; auto; congruence. Qed.
Lemma q_ret A (a : A) : quiet (Ret a). Proof. discriminate. Qed.
Lemma q_slice A (l : list A) a b : quiet (slice l a b).
Proof. unfold slice, quiet. repeat match goal with |- context [if ?c then _ else _] => destruct c end; discriminate. Qed.
Lemma q_be n l a : quiet (read_be n l a). Proof. apply q_bind; [apply q_slice|intros; apply q_ret]. Qed.
Lemma q_arith m t z : quiet (arith m t z).
Proof. unfold quiet, arith. repeat match goal with |- context [if ?c then _ else _] => destruct c | |- context [match m with _ => _ end] => destruct m end; discriminate. Qed.
Lemma q_shift m t k : quiet (shift_amount m t k).
Proof. unfold quiet, shift_amount. destruct (_ && _); [discriminate|]. destruct m; discriminate. Qed.
Lemma q_shl m t x n : quiet (shl m t x n). Proof. apply q_bind; [apply q_shift|intros; apply q_ret]. Qed.
Lemma q_shr m t x n : quiet (shr m t x n). Proof. apply q_bind; [apply q_shift|intros; apply q_ret]. Qed.
Lemma q_grib_int m u d x : quiet (as_grib_int m u d x).
Proof. unfold as_grib_int. destruct (_ <=? _); [|apply q_ret]. apply q_bind; [apply q_shl|]. intros a. apply q_bind; [apply q_shr|]. intros b. apply q_arith. Qed.
Lemma q_i32 m l a : quiet (read_i32 m l a). Proof. apply q_bind; [apply q_be|intros; apply q_grib_int]. Qed.
Ltac q := repeat first [apply q_ret | apply q_be | apply q_i32 | apply q_arith | apply q_slice | apply q_grib_int | (apply q_bind; [|intros ?])].
Lemma q_earth b : quiet (earth_from_buf b). Proof. unfold earth_from_buf. q. Qed.
Lemma q_grid m p : quiet (grid_of_payload m p).
Proof.
  unfold grid_of_payload. apply q_bind; [apply q_be|]. intros n. destruct n as [|n|n]; [destruct (67 <? zlen p); [q|]| |q].
  - apply q_bind; [apply q_slice|]. intros b. apply q_bind; [unfold latlon_from_buf; q|]. intros; q.
  - do 6 (destruct n as [n|n|]; try solve [q]).
    + destruct (67 <? zlen p); [q|]. apply q_bind; [apply q_slice|]. intros b. apply q_bind; [unfold gaussian_from_buf; q|]. intros; q.
Qed.
Lemma q_supported A p (k : outcome (option A)) : quiet k -> quiet (if_supported p k).
Proof. intros H. unfold if_supported. apply q_bind; [unfold template_supported; q|]. intros [|]; [exact H|apply q_ret]. Qed.
Lemma q_forecast p : quiet (forecast_time p).
Proof. unfold forecast_time. apply q_supported. apply q_bind; [apply q_be|]. intros t. destruct (range_match t forecast_index); [|apply q_ret]. cbv zeta. q. Qed.
Lemma q_surface m p i : quiet (read_surface_from m p i).
Proof. unfold read_surface_from. cbv zeta. apply q_bind; [destruct (get_octet p _); q|]. intros. q. Qed.
Lemma q_surfaces m p : quiet (fixed_surfaces m p).
Proof.
  unfold fixed_surfaces. apply q_supported. apply q_bind; [apply q_be|]. intros t. destruct (range_match t surface_index); [|apply q_ret].
  apply q_bind; [apply q_surface|]. intros. apply q_bind; [apply q_surface|]. intros. q.
Qed.

(** ** Views *)

Fixpoint mapM {A B} (f : A -> outcome B) (l : list A) : outcome (list B) :=
  match l with [] => Ret [] | a :: l' => let! b := f a in let! r := mapM f l' in Ret (b :: r) end.
Lemma mapM_ret A B (f : A -> outcome B) l r : mapM f l = Ret r <-> Forall2 (fun a b => f a = Ret b) l r.
Proof.
  revert r. induction l as [|a l IH]; intros r; cbn [mapM].
  - split; [intros E; injection E as <-; constructor|intros F; inversion F; reflexivity].
  - split.
    + intros H. destruct (f a) as [b| |] eqn:E; cbn [bind] in H; try discriminate. destruct (mapM f l) as [r'| |]; cbn [bind] in H; try discriminate.
      injection H as <-. constructor; [exact E|]. apply IH. reflexivity.
    + intros F. inversion F as [|? b ? r' E F']; subst. rewrite E. cbn [bind]. apply IH in F'. rewrite F'. reflexivity.
Qed.
Lemma mapM_panic A B (f : A -> outcome B) l : (forall a, In a l -> quiet (f a)) -> quiet (mapM f l) /\ (mapM f l = Panic <-> exists a, In a l /\ f a = Panic).
Proof.
  induction l as [|a l IH]; intros Q; cbn [mapM].
  - split; [apply q_ret|]. split; [discriminate|intros (a & [] & _)].
  - destruct IH as (IQ & IH); [intros; apply Q; right; assumption|]. assert (Qa := Q a (or_introl eq_refl)). split.
    + apply q_bind; [exact Qa|]. intros. apply q_bind; [exact IQ|]. intros. apply q_ret.
    + destruct (f a) as [b| |] eqn:E; cbn [bind]; [|split; [intros _; exists a; split; [now left|assumption]|reflexivity]|elim Qa; reflexivity].
      split.
      * intros H. destruct (mapM f l) as [r| |]; cbn [bind] in H; try discriminate. destruct (proj1 IH eq_refl) as (x & I & P). exists x. split; [right; exact I|exact P].
      * intros (x & [->|I] & P); [congruence|]. rewrite (proj2 IH (ex_intro _ x (conj I P))). reflexivity.
Qed.

Lemma for_views_skip A g vs (f : view -> outcome A) : all_views g vs -> forall n k, (k + n = length vs)%nat ->
  for_views (S n) g (Z.of_nat k) f = mapM f (skipn k vs).
Proof.
  intros H n. induction n as [|n IH]; intros k E.
  - cbn [for_views]. rewrite (next_at g vs k false H). destruct (nth_error vs k) eqn:N; [apply nth_error_Some in N || (assert (nth_error vs k <> None) as N' by congruence; apply nth_error_Some in N'); lia|].
    cbn [bind]. rewrite skipn_all2 by lia. reflexivity.
  - change (for_views (S (S n)) g (Z.of_nat k) f) with
      (let! (v, p', _) := sub_iter_next g (Z.of_nat k) false in
       match v with None => Ret [] | Some v => let! a := f v in let! l := for_views (S n) g p' f in Ret (a :: l) end).
    rewrite (next_at g vs k false H). destruct (nth_error vs k) as [v|] eqn:N; [|apply nth_error_None in N; lia]. cbn [bind].
    assert (Es : skipn k vs = v :: skipn (S k) vs).
    { clear - N. revert k N. induction vs as [|x vs IH]; intros [|k] N; cbn in *; try discriminate; [congruence|]. rewrite (IH k N). reflexivity. }
    rewrite Es. cbn [mapM]. rewrite IH by lia. reflexivity.
Qed.
Lemma all_of_map A g vs (f : view -> outcome A) : all_views g vs -> all_of g f = mapM f vs.
Proof.
  intros H. unfold all_of. rewrite <- (count_subs g vs H). change 0 with (Z.of_nat 0). rewrite (for_views_skip A g vs f H (length vs) 0) by lia. reflexivity.
Qed.

(** ** What is known of a view *)

Record good (v : view) (d total : Z) (i p3 p p5 : list byte) (n k : Z) : Prop := {
  G_0 : s_body (snd (u_0 v)) = Some (B0 d total);
  G_1 : s_body (snd (u_1 v)) = Some (B1 i);
  G_3 : s_body (snd (u_3 v)) = Some (B3 p3);
  G_4 : s_body (snd (u_4 v)) = Some (B4 p);
  G_5 : s_body (snd (u_5 v)) = Some (B5 p5);
  G_i : 16 <= zlen i; G_l3 : 9 <= zlen p3; G_l4 : 4 <= zlen p; G_l5 : 6 <= zlen p5;
  G_n : grid_num_points p3 = Ret n; G_k : repr_num_points p5 = Ret k;
  G_nr : 0 <= n < 2 ^ 32; G_kr : 0 <= k < 2 ^ 32;
  G_d : 0 <= d; G_total : 0 <= total;
  G_n3 : s_num (snd (u_3 v)) = 3; G_n4 : s_num (snd (u_4 v)) = 4; G_n5 : s_num (snd (u_5 v)) = 5;
  G_mi : 0 <= u_mi v; G_si : 0 <= u_si v
}.
Lemma read_be_some k l a : 0 <= a -> 0 <= k -> a + k <= zlen l -> exists x, read_be k l a = Ret x /\ 0 <= x < 256 ^ k.
Proof.
  intros A K L. unfold read_be, slice. replace (0 <=? a) with true by lia. replace (a <=? a + k) with true by lia. replace (a + k <=? zlen l) with true by lia.
  cbn [andb bind]. eexists. split; [reflexivity|]. match goal with |- 0 <= be ?x < _ => pose proof (be_range x) as R; assert (Hx : zlen x = k) end.
  - unfold zlen in *. rewrite firstn_length, skipn_length. lia.
  - rewrite Hx in R. exact R.
Qed.
Lemma sub_bounds : forall i ms us, submessages_of_all i ms us -> forall u, In u us -> i <= u_mi u < i + zlen ms /\ 0 <= u_si u < zlen us.
Proof.
  intros i ms us H. induction H as [i|i m ms us us' (L & H) _ IH]; intros u Hu; [destruct Hu|].
  rewrite zlen_cons, zlen_app. pose proof (zlen_nonneg _ ms). pose proof (zlen_nonneg _ us). pose proof (zlen_nonneg _ us').
  apply in_app_or in Hu. destruct Hu as [Hu|Hu].
  - apply In_nth_error in Hu. destruct Hu as (k & Hk). destruct (H k u Hk) as (E1 & E2 & _).
    assert (k < length us)%nat by (apply nth_error_Some; congruence). unfold zlen in *. lia.
  - destruct (IH u Hu). lia.
Qed.

Lemma good_view : forall d l v, view_ok d l v -> 0 <= u_mi v -> 0 <= u_si v ->
  exists disc total i p3 p p5 n k, good v disc total i p3 p p5 n k.
Proof.
  intros d l v ((_ & H0 & N0) & (_ & H1 & N1) & (_ & H3 & N3) & (_ & H4 & N4) & (_ & H5 & N5) & _) M S.
  destruct (body_by_num _ _ H1) as (_ & B1' & _). destruct (B1' N1) as (E1 & S1).
  destruct (body_by_num _ _ H3) as (_ & _ & B3' & _). destruct (B3' N3) as (E3 & S3).
  destruct (body_by_num _ _ H4) as (_ & _ & _ & B4' & _). destruct (B4' N4) as (E4 & S4).
  destruct (body_by_num _ _ H5) as (_ & _ & _ & _ & B5' & _). destruct (B5' N5) as (E5 & S5).
  assert (Z : forall x, header_at d x -> s_num x <> 0 -> s_num x <> 7 -> s_num x <> 8 -> 5 <= s_size x -> zlen (octets d (s_offset x + 5) (s_size x - 5)) = s_size x - 5).
  { intros x (P & H) A B C D. replace (s_num x =? 0) with false in H by lia. replace (s_num x =? 8) with false in H by lia.
    destruct H as (_ & _ & _ & b & _ & (Hl & _)). specialize (Hl B). apply zlen_octets; lia. }
  pose proof (Z _ H1 ltac:(lia) ltac:(lia) ltac:(lia) ltac:(lia)) as Z1. pose proof (Z _ H3 ltac:(lia) ltac:(lia) ltac:(lia) ltac:(lia)) as Z3.
  pose proof (Z _ H4 ltac:(lia) ltac:(lia) ltac:(lia) ltac:(lia)) as Z4. pose proof (Z _ H5 ltac:(lia) ltac:(lia) ltac:(lia) ltac:(lia)) as Z5. clear Z.
  destruct (read_be_some 4 (octets d (s_offset (snd (u_3 v)) + 5) (s_size (snd (u_3 v)) - 5)) 1) as (n & Hn & Rn); [lia|lia|lia|].
  destruct (read_be_some 4 (octets d (s_offset (snd (u_5 v)) + 5) (s_size (snd (u_5 v)) - 5)) 0) as (k & Hk & Rk); [lia|lia|lia|].
  destruct H0 as (P0 & H0). rewrite N0 in H0. cbn [Z.eqb] in H0. destruct H0 as (_ & _ & E0).
  eexists _, _, _, _, _, _, n, k. constructor.
  1: exact E0. 1: exact E1. 1: exact E3. 1: exact E4. 1: exact E5. 1-4: lia. 1: exact Hn. 1: exact Hk.
  1-2: change (2 ^ 32) with (256 ^ 4); assumption. 1-2: apply be_range. all: assumption.
Qed.

Lemma file_good : forall m fuel s g, grib2_read m fuel s = Ret (Ok g) -> zlen (data s) < 2 ^ 63 -> 0 <= pos s <= zlen (data s) ->
  exists ms us vs, Forall wf_message ms /\ g_sections g = flat_map message_sections ms /\ submessages_of_all 0 ms us /\
    Forall2 (shows (g_sections g)) us vs /\ zlen vs = g_len g /\ all_views g vs /\
    (forall v, In v vs -> exists disc total i p3 p p5 n k, good v disc total i p3 p p5 n k) /\
    (forall v, In v vs -> 0 <= u_mi v < 2 ^ 63 /\ 0 <= u_si v < 2 ^ 63) /\ zlen ms <= g_len g.
Proof.
  intros m fuel s g E Hl Hp. destruct (views m fuel s g E Hl ltac:(lia)) as (ms & us & vs & W & Es & U & S & M).
  assert (B : 55 * zlen ms + 26 * zlen us <= zlen (data s)).
  { destruct (grib2_read_inv m fuel s g E Hl ltac:(lia)) as (HR & _). destruct s as [d p sc]. cbn [data pos] in *.
    rewrite <- (app_nil_r (map Ok _)) in HR. apply Run_split in HR. destruct HR as (it' & HS & _).
    destruct (SectionStreamP.steps_tiles m d _ _ it' p p (SectionStreamP.Inv_start m d p sc Hl Hp) HS) as (s' & e2 & c2 & T & _).
    apply tiles_weights in T; [|lia]. rewrite Es in T. pose proof (messages_weight ms 0 us W U). lia. }
  assert (L : length us = length vs) by (eapply F2_length; exact S).
  assert (Lv : zlen vs = g_len g) by (unfold g_len, zlen; f_equal; apply count_subs; exact M).
  pose proof (zlen_nonneg _ ms). pose proof (zlen_nonneg _ us).
  assert (R : forall v, In v vs -> 0 <= u_mi v < 2 ^ 63 /\ 0 <= u_si v < 2 ^ 63).
  { intros v Hv. destruct (Forall2_in_r _ _ _ _ _ v S Hv) as (u & Hu & Q). destruct Q as (-> & -> & _). destruct (sub_bounds 0 ms us U u Hu). lia. }
  exists ms, us, vs. split; [exact W|]. split; [exact Es|]. split; [exact U|]. split; [exact S|]. split; [exact Lv|]. split; [exact M|].
  split; [|split; [exact R|]].
  - intros v Hv. destruct (Forall2_in_r _ _ _ _ _ v M Hv) as (w & Hw & Q). destruct (R v Hv) as (R1 & R2).
    eapply good_view; [eapply file_views; eassumption| |]; lia.
  - rewrite <- Lv. clear - W U L. assert (length ms <= length us)%nat; [|unfold zlen; lia]. clear L.
    induction U as [|i m ms us us' (L & _) _ IH]; [cbn; lia|]. inversion W as [|? ? (_ & _ & _ & _ & g & gs & E & _) Ws]; subst.
    rewrite app_length. cbn [length]. specialize (IH Ws). rewrite E in L. cbn [length] in L. lia.
Qed.

(** ** Grid and points *)

Lemma grid_name_iff m p3 t : 9 <= zlen p3 -> (shows_grid m p3 t <->
  (let! grid := grid_of_payload m p3 in
   match grid with
   | Ok g => Ret (short_name g)
   | Err _ => let! t := grid_tmpl_num p3 in Ret (str "unknown (template " ++ show_uint t ++ str ")")
   end) = Ret t).
Proof.
  intros L. destruct (read_be_some 2 p3 7) as (n & Hn & Rn); [lia|lia|lia|].
  assert (K : forall g, grid_of_payload m p3 = Ret (Ok g) -> In (n, short_name g) grid_names).
  { intros g. unfold grid_of_payload. change (read_u16 p3 7) with (read_be 2 p3 7). rewrite Hn. cbn [bind]. cbn [grid_names In].
    destruct n as [|n|n]; [destruct (67 <? zlen p3); [discriminate|]| |discriminate].
    - destruct (slice_from p3 25) as [b| |]; cbn [bind]; try discriminate. destruct (latlon_from_buf m b); cbn [bind]; try discriminate. intros E. injection E as <-. left. reflexivity.
    - do 6 (try (destruct n as [n|n|]; try discriminate)).
      + destruct (slice_from p3 9) as [b| |]; cbn [bind]; try discriminate. destruct (lambert_from_buf m b); cbn [bind]; try discriminate. intros E. injection E as <-. right; right; left. reflexivity.
      + destruct (slice_from p3 9) as [b| |]; cbn [bind]; try discriminate. destruct (polar_from_buf m b); cbn [bind]; try discriminate. intros E. injection E as <-. right; left. reflexivity.
      + destruct (67 <? zlen p3); [discriminate|]. destruct (slice_from p3 25) as [b| |]; cbn [bind]; try discriminate.
        destruct (gaussian_from_buf m b); cbn [bind]; try discriminate. intros E. injection E as <-. right; right; right; left. reflexivity. }
  assert (U : forall t t', In (n, t) grid_names -> In (n, t') grid_names -> t = t').
  { clear. intros t t' A B. cbn [grid_names In] in *. repeat (destruct A as [A|A]; [injection A as <- <-; repeat (destruct B as [B|B]; [injection B; congruence|]); destruct B|]). destruct A. }
  unfold shows_grid, grid_tmpl_num. change (read_u16 p3 7) with (read_be 2 p3 7). rewrite Hn. split.
  - intros (n' & r & E & Eg & H). injection E as <-. rewrite Eg. cbn [bind]. destruct r as [g|x].
    + f_equal. apply (U _ _ (K g Eg) H).
    + destruct H as (w & W & ->). apply written_iff in W as (_ & ->). reflexivity.
  - intros H. destruct (grid_of_payload m p3) as [r| |] eqn:E; cbn [bind] in H; try discriminate. exists n, r. split; [reflexivity|]. split; [reflexivity|].
    destruct r as [g|x]; injection H as <-; [apply K; reflexivity|]. exists (show_uint n). split; [apply written_show; lia|reflexivity].
Qed.

Lemma points_iff m n k nan total : 0 <= n < 2 ^ 32 -> 0 <= k < 2 ^ 32 ->
  (shows_points m n k nan total <-> (let! d := arith m U32 (n - k) in Ret (show_uint d, show_uint n)) = Ret (nan, total)).
Proof.
  intros Hn Hk. unfold shows_points. destruct (Z.le_gt_cases k n) as [C|C].
  - rewrite arith_ok by (change (min_of U32) with 0; change (max_of U32) with (2 ^ 32 - 1); lia). cbn [bind]. split.
    + intros (T & [(_ & N)|(N & _)]); [|lia]. apply written_iff in T as (_ & ->). apply written_iff in N as (_ & ->). reflexivity.
    + intros E. assert (nan = show_uint (n - k)) as -> by congruence. assert (total = show_uint n) as -> by congruence. split; [apply written_show; lia|]. left. split; [exact C|apply written_show; lia].
  - destruct m.
    + split; [intros (_ & [(N & _)|(_ & N & _)]); [lia|discriminate]|]. intros E. exfalso.
      unfold arith in E. replace (in_range U32 (n - k)) with false in E by (unfold in_range; change (min_of U32) with 0; lia). discriminate.
    + rewrite arith_wrapping. replace (in_range U32 (n - k)) with false by (unfold in_range; change (min_of U32) with 0; lia). cbn [bind]. rewrite wrap_unsigned by reflexivity. replace ((n - k) mod 2 ^ bits_of U32) with (2 ^ 32 + n - k) by (change (2 ^ bits_of U32) with (2 ^ 32); apply Z.mod_unique with (q := -1); lia).
      split.
      * intros (T & [(N & _)|(_ & _ & N)]); [lia|]. apply written_iff in T as (_ & ->). apply written_iff in N as (_ & ->). reflexivity.
      * intros E. assert (nan = show_uint (2 ^ 32 + n - k)) as -> by congruence. assert (total = show_uint n) as -> by congruence. split; [apply written_show; lia|]. right. split; [lia|]. split; [reflexivity|]. apply written_show. lia.
Qed.

(** ** gribber list *)

Definition time_text (p : list byte) : outcome (list byte) :=
  let! ft := forecast_time p in Ret (match ft with Some f => forecast_text f | None => [] end).
Definition surface_texts (e : printer) (m : mode) (p : list byte) : outcome (list byte * list byte) :=
  let! fs := fixed_surfaces m p in Ret (match fs with Some (a, b) => (format_surface e a, format_surface e b) | None => ([], []) end).
Definition grid_text (m : mode) (p3 : list byte) : outcome (list byte) :=
  let! grid := grid_of_payload m p3 in
  match grid with
  | Ok g => Ret (short_name g)
  | Err _ => let! t := grid_tmpl_num p3 in Ret (str "unknown (template " ++ show_uint t ++ str ")")
  end.
Definition points_text (m : mode) (n k : Z) : outcome (list byte * list byte) :=
  let! d := arith m U32 (n - k) in Ret (show_uint d, show_uint n).
Definition row_text (id parameter process ft : list byte) (ss : list byte * list byte) (grid_type : list byte) (pts : list byte * list byte) : list byte :=
  pad_left 8 id ++ str " │ " ++ pad_right 31 parameter ++ str " " ++ pad_right 18 process ++ str " " ++
  pad_left 14 ft ++ str " " ++ pad_left 33 (fst ss) ++ str " " ++ pad_left 33 (snd ss) ++ str " │ " ++
  pad_left 10 (fst pts) ++ str "/" ++ pad_left 10 (snd pts) ++ str " " ++ pad_right 21 grid_type ++ lf.

Lemma bind_ret_inv A B (x : outcome A) (f : A -> outcome B) b : bind x f = Ret b <-> exists a, x = Ret a /\ f a = Ret b.
Proof. destruct x as [a| |]; cbn [bind]; split; try discriminate; try (intros (a' & H & _); discriminate); [eauto|]. intros (a' & H & F). injection H as <-. exact F. Qed.
Lemma bind_panic A B (x : outcome A) (f : A -> outcome B) : bind x f = Panic <-> x = Panic \/ exists a, x = Ret a /\ f a = Panic.
Proof.
  destruct x as [a| |]; cbn [bind]; split; auto; try discriminate.
  - eauto.
  - intros [H|(a' & H & F)]; [discriminate|]. injection H as <-. exact F.
  - intros [H|(a' & H & F)]; discriminate.
Qed.

Section List.
  Variable e : printer.
  Hypothesis Ce : compiles e.
  Variables (v : view) (disc total : Z) (i p3 p p5 : list byte) (n k : Z).
  Hypothesis G : good v disc total i p3 p p5 n k.

  Lemma g_indicator : v_indicator v = Ret disc. Proof. unfold v_indicator. rewrite (G_0 _ _ _ _ _ _ _ _ _ G). reflexivity. Qed.
  Lemma g_prod : v_prod_def v = Ret p. Proof. unfold v_prod_def. rewrite (G_4 _ _ _ _ _ _ _ _ _ G). reflexivity. Qed.
  Lemma g_grid : v_grid_def v = Ret p3. Proof. unfold v_grid_def. rewrite (G_3 _ _ _ _ _ _ _ _ _ G). reflexivity. Qed.
  Lemma g_repr : v_repr_def v = Ret p5. Proof. unfold v_repr_def. rewrite (G_5 _ _ _ _ _ _ _ _ _ G). reflexivity. Qed.

  Lemma list_row_eq m : list_row e m v =
    let! parameter := parameter_text e v p in
    let! process := process_text e p in
    let! ft := time_text p in
    let! ss := surface_texts e m p in
    let! g := grid_text m p3 in
    let! pts := points_text m n k in
    Ret (row_text (id_text v) parameter process ft ss g pts).
  Proof.
    unfold list_row. rewrite g_prod, g_grid. cbn [bind]. destruct (parameter_text e v p) as [a| |]; cbn [bind]; try reflexivity.
    destruct (process_text e p) as [b| |]; cbn [bind]; try reflexivity. unfold time_text. destruct (forecast_time p) as [ft| |]; cbn [bind]; try reflexivity.
    unfold surface_texts. destruct (fixed_surfaces m p) as [fs| |]; cbn [bind]; try reflexivity.
    assert (C : cli_list_points m v = let! d := arith m U32 (n - k) in Ret (d, n)).
    { unfold cli_list_points. rewrite g_grid, g_repr. cbn [bind]. rewrite (G_n _ _ _ _ _ _ _ _ _ G). cbn [bind]. rewrite (G_k _ _ _ _ _ _ _ _ _ G). reflexivity. }
    unfold grid_text. rewrite C. unfold points_text. destruct fs as [[s1 s2]|]; destruct (grid_of_payload m p3) as [[g|x]| |]; cbn [bind]; try reflexivity.
    all: try (destruct (arith m U32 (n - k)); reflexivity).
    all: destruct (grid_tmpl_num p3); cbn [bind]; try reflexivity; destruct (arith m U32 (n - k)); reflexivity.
  Qed.
  Lemma id_iff t : shows_id v t <-> t = id_text v.
  Proof.
    unfold shows_id, id_text. split.
    - intros (a & b & A & B & ->). apply written_iff in A as (_ & ->). apply written_iff in B as (_ & ->). reflexivity.
    - intros ->. eexists _, _. split; [apply written_show; apply (G_mi _ _ _ _ _ _ _ _ _ G)|]. split; [apply written_show; apply (G_si _ _ _ _ _ _ _ _ _ G)|]. reflexivity.
  Qed.

  Lemma list_line_iff m line : list_line e m v line <-> list_row e m v = Ret line.
  Proof.
    rewrite list_row_eq. pose proof (G_nr _ _ _ _ _ _ _ _ _ G) as Hn. pose proof (G_kr _ _ _ _ _ _ _ _ _ G) as Hk.
    assert (Ix : exists d, v_indicator v = Ret d) by (eexists; apply g_indicator). split.
    - intros (q & q3 & q5 & n' & k' & E1 & E2 & E3 & E4 & E5 & id & par & proc & ft & s1 & s2 & nan & tot & gr & H1 & H2 & H3 & H4 & H5 & H6 & H7 & L).
      rewrite g_prod in E1. injection E1 as <-. rewrite g_grid in E2. injection E2 as <-. rewrite g_repr in E3. injection E3 as <-.
      rewrite (G_n _ _ _ _ _ _ _ _ _ G) in E4. injection E4 as <-. rewrite (G_k _ _ _ _ _ _ _ _ _ G) in E5. injection E5 as <-.
      apply (parameter_iff e Ce v p par Ix) in H2. apply (process_iff e Ce) in H3. apply forecast_iff in H4. apply surfaces_iff in H5. apply points_iff in H6; try assumption.
      apply grid_name_iff in H7; [|apply (G_l3 _ _ _ _ _ _ _ _ _ G)]. apply id_iff in H1. fold (time_text p) in H4. fold (surface_texts e m p) in H5. fold (points_text m n k) in H6. fold (grid_text m p3) in H7.
      rewrite H2, H3, H4, H5, H6, H7. cbn [bind]. destruct L as (c1 & c2 & c3 & c4 & c5 & c6 & c7 & c8 & c9 & R1 & R2 & R3 & R4 & R5 & R6 & R7 & R8 & R9 & ->).
      apply right_iff in R1, R4, R5, R6, R7, R8. apply left_iff in R2, R3, R9. subst. reflexivity.
    - intros H. apply bind_ret_inv in H. destruct H as (par & H2 & H). apply bind_ret_inv in H. destruct H as (proc & H3 & H). apply bind_ret_inv in H. destruct H as (ft & H4 & H).
      apply bind_ret_inv in H. destruct H as ([s1 s2] & H5 & H). apply bind_ret_inv in H. destruct H as (gr & H7 & H). apply bind_ret_inv in H. destruct H as ([nan tot] & H6 & H). injection H as <-.
      exists p, p3, p5, n, k. split; [apply g_prod|]. split; [apply g_grid|]. split; [apply g_repr|]. split; [apply (G_n _ _ _ _ _ _ _ _ _ G)|]. split; [apply (G_k _ _ _ _ _ _ _ _ _ G)|].
      exists (id_text v), par, proc, ft, s1, s2, nan, tot, gr. split; [apply id_iff; reflexivity|]. split; [apply parameter_iff; assumption|]. split; [apply process_iff; assumption|].
      split; [apply forecast_iff; exact H4|]. split; [apply surfaces_iff; exact H5|]. split; [apply points_iff; assumption|]. split; [apply grid_name_iff; [apply (G_l3 _ _ _ _ _ _ _ _ _ G)|exact H7]|].
      eexists _, _, _, _, _, _, _, _, _. split; [apply right_iff; reflexivity|]. split; [apply left_iff; reflexivity|]. split; [apply left_iff; reflexivity|]. split; [apply right_iff; reflexivity|].
      split; [apply right_iff; reflexivity|]. split; [apply right_iff; reflexivity|]. split; [apply right_iff; reflexivity|]. split; [apply right_iff; reflexivity|]. split; [apply left_iff; reflexivity|]. reflexivity.
  Qed.

  (** When a line cannot be printed. *)
  Lemma supported_some : exists b, template_supported p = Ret b.
  Proof.
    unfold template_supported, prod_tmpl_num. pose proof (G_l4 _ _ _ _ _ _ _ _ _ G). destruct (read_be_some 2 p 2) as (x & Hx & _); [lia|lia|lia|].
    change (read_u16 p 2) with (read_be 2 p 2). rewrite Hx. cbn [bind]. eauto.
  Qed.
  Lemma category_some : exists o, parameter_category p = Ret o.
  Proof. destruct supported_some as (b & E). unfold parameter_category, if_supported. rewrite E. cbn [bind]. destruct b; eauto. Qed.
  Lemma number_some : exists o, parameter_number p = Ret o.
  Proof. destruct supported_some as (b & E). unfold parameter_number, if_supported. rewrite E. cbn [bind]. destruct b; eauto. Qed.
  Lemma process_some : exists o, generating_process p = Ret o.
  Proof.
    destruct supported_some as (b & E). unfold generating_process, if_supported. rewrite E. cbn [bind]. destruct b; [|eauto].
    unfold template_supported in E. destruct (prod_tmpl_num p) as [t| |]; cbn [bind] in *; try discriminate. destruct (range_match t generating_index); eauto.
  Qed.
  Lemma parameter_text_some : exists t, parameter_text e v p = Ret t.
  Proof.
    destruct category_some as (c & E1), number_some as (o & E2). unfold parameter_text. rewrite E1, E2. cbn [bind]. rewrite g_indicator. destruct c, o; cbn [bind]; eauto.
  Qed.
  Lemma process_text_some : exists t, process_text e p = Ret t.
  Proof. destruct process_some as (c & E1). unfold process_text. rewrite E1. cbn [bind]. eauto. Qed.
  Lemma tmpl_some : exists t, grid_tmpl_num p3 = Ret t.
  Proof. pose proof (G_l3 _ _ _ _ _ _ _ _ _ G). destruct (read_be_some 2 p3 7) as (x & Hx & _); [lia|lia|lia|]. exists x. exact Hx. Qed.

  Lemma list_row_panic m : quiet (list_row e m v) /\
    (list_row e m v = Panic <-> forecast_time p = Panic \/ fixed_surfaces m p = Panic \/ grid_of_payload m p3 = Panic \/ (m = Checked /\ n < k)).
  Proof.
    rewrite list_row_eq. destruct parameter_text_some as (a & ->), process_text_some as (b & ->). cbn [bind].
    unfold time_text, surface_texts, grid_text, points_text. destruct tmpl_some as (t & ->).
    pose proof (q_forecast p) as Q1. pose proof (q_surfaces m p) as Q2. pose proof (q_grid m p3) as Q3.
    assert (Q4 : arith m U32 (n - k) = Panic <-> m = Checked /\ n < k).
    { pose proof (G_nr _ _ _ _ _ _ _ _ _ G). pose proof (G_kr _ _ _ _ _ _ _ _ _ G). unfold arith.
      destruct (Z.le_gt_cases k n) as [C|C].
      - replace (in_range U32 (n - k)) with true by (unfold in_range; change (min_of U32) with 0; change (max_of U32) with (2 ^ 32 - 1); lia). split; [discriminate|lia].
      - replace (in_range U32 (n - k)) with false by (unfold in_range; change (min_of U32) with 0; change (max_of U32) with (2 ^ 32 - 1); lia).
        destruct m; split; auto; try discriminate. intros (H' & _). discriminate. }
    pose proof (q_arith m U32 (n - k)) as Q5. unfold quiet in *.
    destruct (forecast_time p) as [ft| |]; cbn [bind]; [|split; [discriminate|tauto]|congruence].
    destruct (fixed_surfaces m p) as [fs| |]; cbn [bind]; [|split; [discriminate|tauto]|congruence].
    destruct (grid_of_payload m p3) as [[g|x]| |]; cbn [bind]; [| |split; [discriminate|tauto]|congruence].
    all: destruct (arith m U32 (n - k)) as [d| |]; cbn [bind]; [|split; [discriminate|tauto]|congruence].
    all: (split; [discriminate|]); split; [discriminate|]; intros [H|[H|[H|H]]]; try discriminate; apply Q4 in H; discriminate.
  Qed.
End List.

Lemma heading_eq : list_header = list_heading.
Proof. vm_compute. reflexivity. Qed.
Lemma bold_eq on t : styled on [str "1"] t = bold on t.
Proof. unfold styled, bold. destruct on; [|reflexivity]. cbn. reflexivity. Qed.
Lemma bold_yellow_eq on t : styled on [str "33"; str "1"] t = bold_yellow on t.
Proof. unfold styled, bold_yellow. destruct on; [|reflexivity]. cbn. reflexivity. Qed.

(** C69 *)
Lemma listed : forall m fuel s g, grib2_read m fuel s = Ret (Ok g) -> zlen (data s) < 2 ^ 63 -> 0 <= pos s <= zlen (data s) ->
  exists ms us vs, Forall wf_message ms /\ g_sections g = flat_map message_sections ms /\ submessages_of_all 0 ms us /\
    Forall2 (shows (g_sections g)) us vs /\ zlen vs = g_len g /\
    forall e m' color, compiles e ->
    (forall t, list_text e m' color false g = Ret t <->
       exists ls, Forall2 (list_line e m') vs ls /\ t = bold color list_heading ++ [x0a] ++ concat ls) /\
    (list_text e m' color false g = Panic <-> exists v, In v vs /\ forall line, ~ list_line e m' v line) /\
    list_text e m' color false g <> Diverge.
Proof.
  intros m fuel s g E Hl Hp. destruct (file_good m fuel s g E Hl Hp) as (ms & us & vs & W & Es & U & S & L & M & Gd & _).
  exists ms, us, vs. repeat (split; [assumption|]). intros e m' color Ce. unfold list_text. rewrite (all_of_map _ g vs _ M), bold_eq, heading_eq.
  assert (LI : forall v, In v vs -> forall line, list_line e m' v line <-> list_row e m' v = Ret line).
  { intros v Hv line. destruct (Gd v Hv) as (disc & total & i & p3 & p & p5 & n & k & G). eapply list_line_iff; eassumption. }
  assert (QI : forall v, In v vs -> quiet (list_row e m' v)).
  { intros v Hv. destruct (Gd v Hv) as (disc & total & i & p3 & p & p5 & n & k & G). eapply list_row_panic; eassumption. }
  destruct (mapM_panic _ _ (list_row e m') vs QI) as (Q & P). split; [|split].
  - intros t. rewrite bind_ret_inv. split.
    + intros (ls & A & B). injection B as <-. exists ls. split; [|reflexivity]. apply mapM_ret in A. clear - A LI.
      induction A as [|v l vs ls A _ IH]; constructor; [apply LI; [left; reflexivity|exact A]|]. apply IH. intros w Hw. apply LI. right. exact Hw.
    + intros (ls & A & ->). exists ls. split; [|reflexivity]. apply mapM_ret. clear - A LI.
      induction A as [|v l vs ls A _ IH]; constructor; [apply LI; [left; reflexivity|exact A]|]. apply IH. intros w Hw. apply LI. right. exact Hw.
  - rewrite bind_panic. split.
    + intros [H|(a & _ & H)]; [|discriminate]. apply P in H. destruct H as (v & Hv & H). exists v. split; [exact Hv|]. intros line K. apply LI in K; [congruence|exact Hv].
    + intros (v & Hv & H). left. apply P. exists v. split; [exact Hv|]. pose proof (QI v Hv) as Qv. unfold quiet in Qv. destruct (list_row e m' v) as [line| |] eqn:R; [|reflexivity|congruence].
      exfalso. apply (H line). apply LI; assumption.
  - apply q_bind; [exact Q|]. intros. apply q_ret.
Qed.
Lemma no_line : forall m fuel s g, grib2_read m fuel s = Ret (Ok g) -> zlen (data s) < 2 ^ 63 -> 0 <= pos s <= zlen (data s) ->
  forall w v, In w (g_subs g) -> make_view g w = Some v ->
  exists p p3, v_prod_def v = Ret p /\ v_grid_def v = Ret p3 /\
  forall e m', compiles e ->
    ((forall line, ~ list_line e m' v line) <->
     forecast_time p = Panic \/ fixed_surfaces m' p = Panic \/ grid_of_payload m' p3 = Panic \/
     (m' = Checked /\ DecodeS.grid_points (data s) v < DecodeS.packed_points (data s) v)).
Proof.
  intros m fuel s g E Hl Hp w v Hw Hv. destruct (file_good m fuel s g E Hl Hp) as (ms & us & vs & W & Es & U & S & L & M & Gd & _).
  destruct (Forall2_in_l _ _ _ _ _ w M Hw) as (v' & Hv' & Q). assert (v' = v) by congruence. subst v'.
  destruct (Gd v Hv') as (disc & total & i & p3 & p & p5 & n & k & G). exists p, p3. split; [eapply g_prod; exact G|]. split; [eapply g_grid; exact G|].
  intros e m' Ce. destruct (list_row_panic e v disc total i p3 p p5 n k G m') as (Qd & P).
  destruct (list_points m fuel s g E Hl Hp w v Hw Hv) as (LP1 & LP2).
  assert (NK : n < k <-> DecodeS.grid_points (data s) v < DecodeS.packed_points (data s) v).
  { assert (C : cli_list_points Checked v = Panic <-> n < k).
    { unfold cli_list_points. rewrite (g_grid _ _ _ _ _ _ _ _ _ G), (g_repr _ _ _ _ _ _ _ _ _ G). cbn [bind]. rewrite (G_n _ _ _ _ _ _ _ _ _ G). cbn [bind]. rewrite (G_k _ _ _ _ _ _ _ _ _ G). cbn [bind].
      rewrite arith_checked. pose proof (G_nr _ _ _ _ _ _ _ _ _ G). pose proof (G_kr _ _ _ _ _ _ _ _ _ G).
      destruct (in_range U32 (n - k)) eqn:R; unfold in_range in R; change (min_of U32) with 0 in R; change (max_of U32) with (2 ^ 32 - 1) in R; cbn [bind]; (split; [try discriminate; intros; lia|intros; try reflexivity; exfalso; lia]). }
    destruct (Z.le_gt_cases (DecodeS.packed_points (data s) v) (DecodeS.grid_points (data s) v)) as [X|X].
    - specialize (LP1 X Checked). rewrite LP1 in C. split; [intros Y; apply C in Y; discriminate|lia].
    - destruct (LP2 X) as (Y & _). split; [intros _; exact X|intros _; apply C; exact Y]. }
  rewrite <- NK, <- P. split.
  - intros H. unfold quiet in Qd. destruct (list_row e m' v) as [line| |] eqn:R; [|reflexivity|congruence]. exfalso. apply (H line). eapply list_line_iff; eassumption.
  - intros H line K. eapply list_line_iff in K; try eassumption. congruence.
Qed.

(** The number in the first column selects the submessage. *)
Lemma listed_id : forall m fuel s g, grib2_read m fuel s = Ret (Ok g) -> zlen (data s) < 2 ^ 63 -> 0 <= pos s <= zlen (data s) ->
  forall w v t, In w (g_subs g) -> make_view g w = Some v -> shows_id v t ->
  exists i, cli_message_index t = Ret (Ok i) /\ forall rfuel, g_len g < Z.of_nat rfuel -> cli_find rfuel g 0 i = Ret (Some v).
Proof.
  intros m fuel s g E Hl Hp w v t Hw Hv (a & b & A & B & ->). destruct (file_good m fuel s g E Hl Hp) as (ms & us & vs & W & Es & U & S & L & M & Gd & R & _).
  destruct (Forall2_in_l _ _ _ _ _ w M Hw) as (v' & Hv' & Q). assert (v' = v) by congruence. subst v'. destruct (R v Hv') as (R1 & R2).
  exists (u_mi v, u_si v). split.
  - destruct A as (A1 & A2 & _), B as (B1 & B2 & _). rewrite (index_parsed (a ++ text "." ++ b) a b) by (split; [exact A1|split; [exact B1|reflexivity]]).
    rewrite A2, B2. replace (u_mi v <? 2 ^ 64) with true by lia. replace (u_si v <? 2 ^ 64) with true by lia. reflexivity.
  - intros rfuel Hf. rewrite (find_from g vs _ rfuel 0 M) by (unfold zlen in L; lia). cbn [skipn fst snd].
    destruct (find (fun x => (u_mi x =? u_mi v) && (u_si x =? u_si v)) vs) as [x|] eqn:F.
    + apply find_some in F. destruct F as (Ix & Ex). f_equal. f_equal. destruct (sub_indices ms 0 us U) as (ND & _). rewrite (shows_index _ _ _ S) in ND.
      eapply (NoDup_map_inj _ _ _ _ ND); [exact Ix|exact Hv'|]. cbn beta. f_equal; lia.
    + eapply find_none in F; [|exact Hv']. cbn beta in F. lia.
Qed.

(** ** Descriptions *)

Lemma names_iff e s c : compiles e -> has_template s -> get_tmpl_code s = Ret (Some c) -> In (fst c) [3; 4; 5] -> 0 <= snd c ->
  forall t, names_template e s t <-> section_describe e s = Ret t.
Proof.
  intros Ce H E I P t. destruct (tmpl_code_spec s H) as (o & E' & Sp). rewrite E in E'. injection E' as <-.
  assert (T : template_of s c) by (apply Sp; reflexivity).
  assert (U : forall c', template_of s c' -> c' = c) by (intros c' T'; apply Sp in T'; congruence).
  unfold names_template, section_describe. rewrite E. cbn [bind].
  assert (K : exists table, In (fst c, table) template_tables /\ template_describe e c = Some (table_text e table (snd c)) /\ forall table', In (fst c, table') template_tables -> table' = table).
  { destruct c as [a b]. cbn [fst snd] in *. destruct I as [<-|[<-|[<-|[]]]]; eexists; (split; [cbn [template_tables In]; eauto|]); (split; [reflexivity|]);
      intros table' X; cbn [template_tables In] in X; repeat (destruct X as [X|X]; [injection X; congruence|]); destruct X. }
  destruct K as (table & K1 & -> & K3). split.
  - intros (c' & table' & T' & I' & Lk). apply U in T'. subst c'. apply K3 in I'. subst table'. f_equal. symmetry. apply looked_iff; assumption.
  - intros X. injection X as <-. exists c, table. split; [exact T|]. split; [exact K1|]. apply looked_iff; [assumption|assumption|reflexivity].
Qed.

Definition surface_details (e : printer) (m : mode) (p : list byte) :=
  let! fs := fixed_surfaces m p in
  Ret (match fs with Some (a, b) => (surface_describe e a, surface_describe e b) | None => (([], [], []), ([], [], [])) end).
Definition time_details (p : list byte) :=
  let! ft := forecast_time p in Ret (match ft with Some f => forecast_describe f | None => ([], []) end).
Definition category_text (e : printer) (v : view) (p : list byte) :=
  let! c := parameter_category p in
  match c with Some c => let! d := v_indicator v in Ret (table_text e (CodeTable4_1 d) c) | None => Ret [] end.

Lemma surface_type_nonneg m p a b : fixed_surfaces m p = Ret (Some (a, b)) -> 0 <= surface_type a /\ 0 <= surface_type b.
Proof.
  assert (K : forall i s, read_surface_from m p i = Ret (Some s) -> 0 <= surface_type s).
  { intros i s. unfold read_surface_from. cbv zeta. intros H. apply bind_ret_inv in H. destruct H as (f & _ & H). apply bind_ret_inv in H. destruct H as (x & _ & H).
    destruct (get_octet p (START_OF_PROD_TEMPLATE + i)) as [t|] eqn:T; [|discriminate]. destruct f; [|discriminate]. injection H as <-. cbn [surface_type]. apply (get_octet_nonneg _ _ _ T). }
  unfold fixed_surfaces, if_supported. intros H. apply bind_ret_inv in H. destruct H as ([|] & _ & H); [|discriminate]. apply bind_ret_inv in H. destruct H as (t & _ & H).
  destruct (range_match t surface_index) as [i|]; [|discriminate]. apply bind_ret_inv in H. destruct H as (oa & Ha & H). apply bind_ret_inv in H. destruct H as (ob & Hb & H).
  injection H as H. destruct oa as [a'|]; [|discriminate]. destruct ob as [b'|]; [|discriminate]. injection H as <- <-. split; eapply K; eassumption.
Qed.
Lemma details_iff e s ts : compiles e -> 0 <= surface_type s -> (details_surface e s ts <-> ts = surface_describe e s).
Proof.
  intros Ce H. unfold details_surface, surface_describe. destruct ts as [[t1 t2] t3]. cbn [fst snd]. rewrite (looked_iff e Ce) by exact H.
  destruct (scale_factor_is_nan s), (value_is_nan s); rewrite ?signed_iff; (split; [intros (-> & -> & ->); reflexivity|intros X; injection X as -> -> ->; auto]).
Qed.
Lemma surface_details_iff e m p s1 s2 : compiles e ->
  ((exists o, fixed_surfaces m p = Ret o /\
     match o with Some (a, b) => details_surface e a s1 /\ details_surface e b s2 | None => s1 = ([], [], []) /\ s2 = ([], [], []) end) <->
   surface_details e m p = Ret (s1, s2)).
Proof.
  intros Ce. unfold surface_details. rewrite bind_ret_inv. split.
  - intros (o & E & H). exists o. split; [exact E|]. f_equal. destruct o as [[a b]|]; [|destruct H; congruence].
    destruct (surface_type_nonneg m p a b E) as (N1 & N2). destruct H as (H1 & H2). apply details_iff in H1; [|assumption|assumption]. apply details_iff in H2; [|assumption|assumption]. congruence.
  - intros (o & E & H). exists o. split; [exact E|]. injection H as H. destruct o as [[a b]|]; injection H as <- <-; [|auto].
    destruct (surface_type_nonneg m p a b E). split; apply details_iff; auto.
Qed.

Definition describe_rows (grid points product category parameter process value unit : list byte) (s1 s2 : list byte * list byte * list byte) (representation values : list byte) :=
  [(text "Grid:", grid); (text "  Number of points:", points); (text "Product:", product);
   (text "  Parameter Category:", category); (text "  Parameter:", parameter); (text "  Generating Proceess:", process);
   (text "  Forecast Time:", value); (text "  Forecast Time Unit:", unit);
   (text "  1st Fixed Surface Type:", fst (fst s1)); (text "  1st Scale Factor:", snd (fst s1)); (text "  1st Scaled Value:", snd s1);
   (text "  2nd Fixed Surface Type:", fst (fst s2)); (text "  2nd Scale Factor:", snd (fst s2)); (text "  2nd Scaled Value:", snd s2);
   (text "Data Representation:", representation); (text "  Number of represented values:", values)].
Definition rows_text (w : Z) (rows : list (list byte * list byte)) : list byte := concat (map (fun row => pad_right w (fst row) ++ snd row ++ lf) rows).

Section Describe.
  Variable e : printer.
  Hypothesis Ce : compiles e.
  Variables (v : view) (disc total : Z) (i p3 p p5 : list byte) (n k : Z).
  Hypothesis G : good v disc total i p3 p p5 n k.

  Lemma describe_eq m : describe e m v =
    let! category := category_text e v p in
    let! ft := time_details p in
    let! ss := surface_details e m p in
    let! grid := section_describe e (snd (u_3 v)) in
    let! product := section_describe e (snd (u_4 v)) in
    let! parameter := parameter_text e v p in
    let! process := process_text e p in
    let! representation := section_describe e (snd (u_5 v)) in
    Ret (rows_text 40 (describe_rows grid (show_uint n) product category parameter process (snd ft) (fst ft) (fst ss) (snd ss) representation (show_uint k))).
  Proof.
    unfold describe. rewrite (g_prod _ _ _ _ _ _ _ _ _ G), (g_grid _ _ _ _ _ _ _ _ _ G), (g_repr _ _ _ _ _ _ _ _ _ G). cbn [bind].
    rewrite (G_n _ _ _ _ _ _ _ _ _ G), (G_k _ _ _ _ _ _ _ _ _ G). cbn [bind]. unfold category_text, time_details, surface_details. rewrite (g_indicator _ _ _ _ _ _ _ _ _ G).
    destruct (category_some v disc total i p3 p p5 n k G) as (c & ->). cbn [bind].
    assert (X : forall A (f : list byte -> outcome A), (let! t := match c with Some c0 => let! d := Ret disc in Ret (table_text e (CodeTable4_1 d) c0) | None => Ret [] end in f t) =
                f (match c with Some c0 => table_text e (CodeTable4_1 disc) c0 | None => [] end)) by (intros; destruct c; reflexivity).
    rewrite X. destruct (forecast_time p) as [ft| |]; cbn [bind]; try reflexivity. destruct (match ft with Some f => forecast_describe f | None => ([], []) end) as [ftu ftv].
    destruct (fixed_surfaces m p) as [fs| |]; cbn [bind]; try reflexivity.
    destruct (match fs with Some (a, b) => (surface_describe e a, surface_describe e b) | None => (([], [], []), ([], [], [])) end) as [s1 s2].
    destruct (section_describe e (snd (u_3 v))) as [t3| |]; cbn [bind]; try reflexivity.
    destruct (section_describe e (snd (u_4 v))) as [t4| |]; cbn [bind]; try reflexivity.
    rewrite X. destruct (parameter_text e v p) as [par| |]; cbn [bind]; try reflexivity.
    destruct (process_text e p) as [proc| |]; cbn [bind]; try reflexivity.
    destruct (section_describe e (snd (u_5 v))) as [t5| |]; cbn [bind]; try reflexivity.
    f_equal. unfold rows_text, describe_rows. cbn [map concat fst snd]. unfold field. rewrite app_nil_r. rewrite <- !app_assoc. reflexivity.
  Qed.

  Lemma name_3 : (forall t, names_template e (snd (u_3 v)) t <-> section_describe e (snd (u_3 v)) = Ret t) /\ exists t, section_describe e (snd (u_3 v)) = Ret t.
  Proof.
    pose proof (G_l3 _ _ _ _ _ _ _ _ _ G). destruct (read_be_some 2 p3 7) as (x & Hx & Rx); [lia|lia|lia|].
    assert (C : get_tmpl_code (snd (u_3 v)) = Ret (Some (3, x))).
    { unfold get_tmpl_code. rewrite (G_3 _ _ _ _ _ _ _ _ _ G), (G_n3 _ _ _ _ _ _ _ _ _ G). unfold grid_tmpl_num, read_u16. rewrite Hx. reflexivity. }
    split; [|unfold section_describe; rewrite C; cbn [bind]; eauto]. apply (names_iff e _ (3, x) Ce); [|exact C|cbn; tauto|cbn; lia].
    unfold has_template. rewrite (G_3 _ _ _ _ _ _ _ _ _ G). assumption.
  Qed.
  Lemma name_4 : (forall t, names_template e (snd (u_4 v)) t <-> section_describe e (snd (u_4 v)) = Ret t) /\ exists t, section_describe e (snd (u_4 v)) = Ret t.
  Proof.
    pose proof (G_l4 _ _ _ _ _ _ _ _ _ G). destruct (read_be_some 2 p 2) as (x & Hx & Rx); [lia|lia|lia|].
    assert (C : get_tmpl_code (snd (u_4 v)) = Ret (Some (4, x))).
    { unfold get_tmpl_code. rewrite (G_4 _ _ _ _ _ _ _ _ _ G), (G_n4 _ _ _ _ _ _ _ _ _ G). unfold prod_tmpl_num, read_u16. rewrite Hx. reflexivity. }
    split; [|unfold section_describe; rewrite C; cbn [bind]; eauto]. apply (names_iff e _ (4, x) Ce); [|exact C|cbn; tauto|cbn; lia].
    unfold has_template. rewrite (G_4 _ _ _ _ _ _ _ _ _ G). assumption.
  Qed.
  Lemma name_5 : (forall t, names_template e (snd (u_5 v)) t <-> section_describe e (snd (u_5 v)) = Ret t) /\ exists t, section_describe e (snd (u_5 v)) = Ret t.
  Proof.
    pose proof (G_l5 _ _ _ _ _ _ _ _ _ G). destruct (read_be_some 2 p5 4) as (x & Hx & Rx); [lia|lia|lia|].
    assert (C : get_tmpl_code (snd (u_5 v)) = Ret (Some (5, x))).
    { unfold get_tmpl_code. rewrite (G_5 _ _ _ _ _ _ _ _ _ G), (G_n5 _ _ _ _ _ _ _ _ _ G). unfold repr_tmpl_num, read_u16. rewrite Hx. reflexivity. }
    split; [|unfold section_describe; rewrite C; cbn [bind]; eauto]. apply (names_iff e _ (5, x) Ce); [|exact C|cbn; tauto|cbn; lia].
    unfold has_template. rewrite (G_5 _ _ _ _ _ _ _ _ _ G). assumption.
  Qed.

  Lemma description_iff m t : description_of e m v t <-> describe e m v = Ret t.
  Proof.
    rewrite describe_eq. assert (Ix : exists d, v_indicator v = Ret d) by (eexists; apply (g_indicator _ _ _ _ _ _ _ _ _ G)).
    destruct name_3 as (N3 & _), name_4 as (N4 & _), name_5 as (N5 & _). split.
    - intros (q & q3 & q5 & n' & k' & E1 & E2 & E3 & E4 & E5 & gr & pts & prod & cat & par & proc & val & unit & s1 & s2 & repr & vals & H1 & H2 & H3 & H4 & H5 & H6 & H7 & H8 & H9 & H10 & L).
      rewrite (g_prod _ _ _ _ _ _ _ _ _ G) in E1. injection E1 as <-. rewrite (g_grid _ _ _ _ _ _ _ _ _ G) in E2. injection E2 as <-. rewrite (g_repr _ _ _ _ _ _ _ _ _ G) in E3. injection E3 as <-.
      rewrite (G_n _ _ _ _ _ _ _ _ _ G) in E4. injection E4 as <-. rewrite (G_k _ _ _ _ _ _ _ _ _ G) in E5. injection E5 as <-.
      apply N3 in H1. apply N4 in H3. apply N5 in H9. apply (category_iff e Ce v p cat Ix) in H4. fold (category_text e v p) in H4.
      apply (parameter_iff e Ce v p par Ix) in H5. apply (process_iff e Ce) in H6. apply forecast_unit_iff in H7. fold (time_details p) in H7. apply (surface_details_iff e m p s1 s2 Ce) in H8.
      rewrite H1, H3, H4, H5, H6, H7, H8, H9. cbn [bind fst snd]. apply labelled_iff in L. apply written_iff in H2 as (_ & ->). apply written_iff in H10 as (_ & ->). rewrite L. reflexivity.
    - intros H. apply bind_ret_inv in H. destruct H as (cat & H4 & H). apply bind_ret_inv in H. destruct H as ([unit val] & H7 & H). apply bind_ret_inv in H. destruct H as ([s1 s2] & H8 & H).
      apply bind_ret_inv in H. destruct H as (gr & H1 & H). apply bind_ret_inv in H. destruct H as (prod & H3 & H). apply bind_ret_inv in H. destruct H as (par & H5 & H).
      apply bind_ret_inv in H. destruct H as (proc & H6 & H). apply bind_ret_inv in H. destruct H as (repr & H9 & H). cbn [fst snd] in H.
      assert (Et : rows_text 40 (describe_rows gr (show_uint n) prod cat par proc val unit s1 s2 repr (show_uint k)) = t) by congruence. clear H. subst t.
      pose proof (G_nr _ _ _ _ _ _ _ _ _ G) as Hn. pose proof (G_kr _ _ _ _ _ _ _ _ _ G) as Hk.
      exists p, p3, p5, n, k. split; [apply (g_prod _ _ _ _ _ _ _ _ _ G)|]. split; [apply (g_grid _ _ _ _ _ _ _ _ _ G)|]. split; [apply (g_repr _ _ _ _ _ _ _ _ _ G)|].
      split; [apply (G_n _ _ _ _ _ _ _ _ _ G)|]. split; [apply (G_k _ _ _ _ _ _ _ _ _ G)|].
      exists gr, (show_uint n), prod, cat, par, proc, val, unit, s1, s2, repr, (show_uint k).
      split; [apply N3; exact H1|]. split; [apply written_show; lia|]. split; [apply N4; exact H3|]. split; [apply (category_iff e Ce v p cat Ix); exact H4|].
      split; [apply (parameter_iff e Ce v p par Ix); exact H5|]. split; [apply (process_iff e Ce); exact H6|]. split; [apply forecast_unit_iff; exact H7|].
      split; [apply (surface_details_iff e m p s1 s2 Ce); exact H8|]. split; [apply N5; exact H9|]. split; [apply written_show; lia|]. apply labelled_iff. reflexivity.
  Qed.
  Lemma describe_panic m : quiet (describe e m v) /\ (describe e m v = Panic <-> forecast_time p = Panic \/ fixed_surfaces m p = Panic).
  Proof.
    rewrite describe_eq. destruct name_3 as (_ & t3 & ->), name_4 as (_ & t4 & ->), name_5 as (_ & t5 & ->).
    destruct (parameter_text_some e v disc total i p3 p p5 n k G) as (a & ->), (process_text_some e v disc total i p3 p p5 n k G) as (b & ->). cbn [bind].
    unfold category_text, time_details, surface_details. rewrite (g_indicator _ _ _ _ _ _ _ _ _ G). destruct (category_some v disc total i p3 p p5 n k G) as (c & ->). cbn [bind].
    pose proof (q_forecast p) as Q1. pose proof (q_surfaces m p) as Q2. unfold quiet in *.
    destruct (forecast_time p) as [ft| |]; [| |congruence]; (destruct (fixed_surfaces m p) as [fs| |]; [| |congruence]); destruct c; cbn [bind];
      (split; [discriminate|]); split; try tauto; try discriminate; intros [H|H]; discriminate.
  Qed.
  Lemma dump_iff m t : dump_of e m v t <-> dump_entry e m v = Ret t.
  Proof.
    unfold dump_of, dump_entry. rewrite bind_ret_inv. split.
    - intros (id & d & A & B & ->). apply (id_iff v disc total i p3 p p5 n k G) in A. apply description_iff in B. subst. exists d. split; [exact B|reflexivity].
    - intros (d & B & H). exists (id_text v), d. split; [apply (id_iff v disc total i p3 p p5 n k G); reflexivity|]. split; [apply description_iff; exact B|]. injection H as <-. reflexivity.
  Qed.
  Lemma dump_panic m : quiet (dump_entry e m v) /\ (dump_entry e m v = Panic <-> forecast_time p = Panic \/ fixed_surfaces m p = Panic).
  Proof.
    destruct (describe_panic m) as (Q & P). unfold dump_entry. split; [apply q_bind; [exact Q|intros; apply q_ret]|]. rewrite bind_panic, P.
    split; [intros [H|(a & _ & H)]; [exact H|discriminate]|]. intros H. left. exact H.
  Qed.
End Describe.

Lemma forall2_iff A B (R R' : A -> B -> Prop) l r : (forall a, In a l -> forall b, R a b <-> R' a b) -> (Forall2 R l r <-> Forall2 R' l r).
Proof.
  intros H. split; intros F.
  - induction F as [|a b l r X _ IH]; constructor; [apply H; [left; reflexivity|exact X]|]. apply IH. intros a' I. apply H. right. exact I.
  - induction F as [|a b l r X _ IH]; constructor; [apply H; [left; reflexivity|exact X]|]. apply IH. intros a' I. apply H. right. exact I.
Qed.

Lemma dumped : forall m fuel s g, grib2_read m fuel s = Ret (Ok g) -> zlen (data s) < 2 ^ 63 -> 0 <= pos s <= zlen (data s) ->
  exists ms us vs, Forall wf_message ms /\ g_sections g = flat_map message_sections ms /\ submessages_of_all 0 ms us /\
    Forall2 (shows (g_sections g)) us vs /\ zlen vs = g_len g /\
    forall e m' color, compiles e ->
    (forall t, list_text e m' color true g = Ret t <-> exists ls, Forall2 (dump_of e m') vs ls /\ t = concat ls) /\
    (list_text e m' color true g = Panic <->
       exists v p, In v vs /\ v_prod_def v = Ret p /\ (forecast_time p = Panic \/ fixed_surfaces m' p = Panic)) /\
    list_text e m' color true g <> Diverge.
Proof.
  intros m fuel s g E Hl Hp. destruct (file_good m fuel s g E Hl Hp) as (ms & us & vs & W & Es & U & S & L & M & Gd & _).
  exists ms, us, vs. repeat (split; [assumption|]). intros e m' color Ce. unfold list_text. rewrite (all_of_map _ g vs _ M).
  assert (LI : forall v, In v vs -> forall line, dump_of e m' v line <-> dump_entry e m' v = Ret line).
  { intros v Hv line. destruct (Gd v Hv) as (disc & total & i & p3 & p & p5 & n & k & G). eapply dump_iff; eassumption. }
  assert (QI : forall v, In v vs -> quiet (dump_entry e m' v)).
  { intros v Hv. destruct (Gd v Hv) as (disc & total & i & p3 & p & p5 & n & k & G). eapply dump_panic; eassumption. }
  destruct (mapM_panic _ _ (dump_entry e m') vs QI) as (Q & P). split; [|split].
  - intros t. rewrite bind_ret_inv. split.
    + intros (ls & A & B). injection B as <-. exists ls. split; [|reflexivity]. apply mapM_ret in A. apply (forall2_iff _ _ _ _ vs ls LI). exact A.
    + intros (ls & A & ->). exists ls. split; [|reflexivity]. apply mapM_ret. apply (forall2_iff _ _ _ _ vs ls LI). exact A.
  - rewrite bind_panic, P. split.
    + intros [(v & Hv & H)|(a & _ & H)]; [|discriminate]. destruct (Gd v Hv) as (disc & total & i & p3 & p & p5 & n & k & G). exists v, p. split; [exact Hv|]. split; [eapply g_prod; exact G|].
      eapply dump_panic; eassumption.
    + intros (v & q & Hv & Eq & H). left. exists v. split; [exact Hv|]. destruct (Gd v Hv) as (disc & total & i & p3 & p & p5 & n & k & G).
      rewrite (g_prod _ _ _ _ _ _ _ _ _ G) in Eq. injection Eq as <-. eapply dump_panic; eassumption.
  - apply q_bind; [exact Q|]. intros. apply q_ret.
Qed.
