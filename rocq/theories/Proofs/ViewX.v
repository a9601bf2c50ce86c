(** Submessages of a file: their sections and accessors. *)
From Coq Require Import Lia ZifyBool ZifyNat.
From Verif Require Import Model.Base Model.Helpers Model.Errors Model.Sections Model.Reader Model.Parser Model.Context Model.Product.
From Verif Require Import Spec.Bits Spec.ReaderS Spec.ParserS Spec.ContextS Spec.FieldsS Spec.ProductS.
From Verif Require Import Proofs.BaseLemmas Proofs.HelpersP Proofs.ReaderP Proofs.FieldsP Proofs.FieldsX Proofs.ProductX Proofs.CalendarP Proofs.ContextX.
Ltac Zify.zify_post_hook ::= Z.div_mod_to_equations.

Lemma latest_in : forall A (l : list (option A)) a, latest l = Some a -> In (Some a) l.
Proof.
  induction l as [|x l IH]; intros a H; cbn [latest] in H; [discriminate|].
  destruct (latest l) as [b|]; [injection H as ->; right; apply IH; reflexivity|]. subst x. left. reflexivity.
Qed.
Lemma in_firstn : forall A n (l : list A) x, In x (firstn n l) -> In x l.
Proof. intros A n l x H. rewrite <- (firstn_skipn n l). apply in_or_app. left. exact H. Qed.

Lemma sub_nums : forall i m us u, wf_message m -> submessages_of i m us -> In u us ->
  s_num (u_0 u) = 0 /\ s_num (u_1 u) = 1 /\ s_num (u_3 u) = 3 /\ s_num (u_4 u) = 4 /\ s_num (u_5 u) = 5 /\ s_num (u_6 u) = 6 /\ s_num (u_7 u) = 7.
Proof.
  intros i m us u (W0 & W1 & _ & Wg & _) (_ & H) Hu. apply In_nth_error in Hu. destruct Hu as (k & Hk).
  destruct (H k u Hk) as (_ & _ & -> & -> & _ & E3 & (g & Hg & -> & -> & -> & ->) & _).
  rewrite Forall_forall in Wg. apply nth_error_In in Hg. destruct (Wg g Hg) as (_ & _ & _ & N4 & N5 & N6 & N7).
  symmetry in E3. apply latest_in in E3. apply in_map_iff in E3. destruct E3 as (g3 & E & Hin). apply in_firstn in Hin.
  destruct (Wg g3 Hin) as (_ & N3 & _). rewrite E in N3. cbn [opt_num] in N3. auto 10.
Qed.
Lemma sub_nums_all : forall i ms us u, Forall wf_message ms -> submessages_of_all i ms us -> In u us ->
  s_num (u_0 u) = 0 /\ s_num (u_1 u) = 1 /\ s_num (u_3 u) = 3 /\ s_num (u_4 u) = 4 /\ s_num (u_5 u) = 5 /\ s_num (u_6 u) = 6 /\ s_num (u_7 u) = 7.
Proof.
  intros i ms us u W H. induction H as [|i m ms us us' Hs _ IH]; intros Hu; [destruct Hu|].
  inversion W; subst. apply in_app_or in Hu. destruct Hu as [Hu|Hu]; [eapply sub_nums; eassumption|auto].
Qed.

Lemma Forall2_in_r : forall A B (R : A -> B -> Prop) l l' y, Forall2 R l l' -> In y l' -> exists x, In x l /\ R x y.
Proof. intros A B R l l' y H. induction H as [|a b l l' Hr _ IH]; intros Hy; [destruct Hy|]. destruct Hy as [->|Hy]; [exists a; cbn; auto|]. destruct (IH Hy) as (x & Hx & E). exists x. cbn. auto. Qed.
Lemma Forall2_in_l : forall A B (R : A -> B -> Prop) l l' x, Forall2 R l l' -> In x l -> exists y, In y l' /\ R x y.
Proof. intros A B R l l' x H. induction H as [|a b l l' Hr _ IH]; intros Hy; [destruct Hy|]. destruct Hy as [->|Hy]; [exists b; cbn; auto|]. destruct (IH Hy) as (y & Hx & E). exists y. cbn. auto. Qed.

Lemma view_section_in : forall g i x, view_section g i = Some x -> In (snd x) (g_sections g).
Proof.
  intros g i x H. unfold view_section, get in H. destruct (0 <=? i); [|discriminate].
  destruct (nth_error (g_sections g) (Z.to_nat i)) as [s|] eqn:E; [|discriminate]. injection H as <-. apply nth_error_In in E. exact E.
Qed.
Lemma make_view_in : forall g w v, make_view g w = Some v ->
  let ok (x : Z * section) := In (snd x) (g_sections g) in
  ok (u_0 v) /\ ok (u_1 v) /\ ok (u_3 v) /\ ok (u_4 v) /\ ok (u_5 v) /\ ok (u_6 v) /\ ok (u_7 v).
Proof.
  intros g w v H ok. unfold make_view in H.
  destruct (view_section g (u_0 w)) as [x0|] eqn:E0; [|discriminate]. destruct (view_section g (u_1 w)) as [x1|] eqn:E1; [|discriminate].
  destruct (view_section g (u_3 w)) as [x3|] eqn:E3; [|discriminate]. destruct (view_section g (u_4 w)) as [x4|] eqn:E4; [|discriminate].
  destruct (view_section g (u_5 w)) as [x5|] eqn:E5; [|discriminate]. destruct (view_section g (u_6 w)) as [x6|] eqn:E6; [|discriminate].
  destruct (view_section g (u_7 w)) as [x7|] eqn:E7; [|discriminate]. destruct (view_section g (u_8 w)) as [x8|] eqn:E8; [|discriminate].
  injection H as <-. cbn [u_0 u_1 u_3 u_4 u_5 u_6 u_7].
  repeat split; eapply view_section_in; eassumption.
Qed.

(** What is known of the sections of a submessage of a file. *)
Definition view_ok (d : list byte) (l : list section) (v : view) : Prop :=
  let ok (x : Z * section) n := In (snd x) l /\ header_at d (snd x) /\ s_num (snd x) = n in
  ok (u_0 v) 0 /\ ok (u_1 v) 1 /\ ok (u_3 v) 3 /\ ok (u_4 v) 4 /\ ok (u_5 v) 5 /\ ok (u_6 v) 6 /\ ok (u_7 v) 7.

Lemma file_views : forall m fuel s g, grib2_read m fuel s = Ret (Ok g) -> zlen (data s) < 2 ^ 63 -> 0 <= pos s <= zlen (data s) ->
  forall w v, In w (g_subs g) -> make_view g w = Some v -> view_ok (data s) (g_sections g) v.
Proof.
  intros m fuel s g Hr Hd Hp w v Hw Hv. destruct (views m fuel s g Hr Hd ltac:(lia)) as (ms & us & vs & W & _ & U & S & M).
  pose proof (file_sections_headers m fuel s g Hr Hd Hp) as Hh. rewrite Forall_forall in Hh.
  pose proof (make_view_in g w v Hv) as I.
  destruct (Forall2_in_l _ _ _ _ _ w M Hw) as (v' & Hv' & E). assert (v' = v) by congruence. subst v'.
  destruct (Forall2_in_r _ _ _ _ _ v S Hv') as (u & Hu & Hs). pose proof (sub_nums_all 0 ms us u W U Hu) as N.
  destruct Hs as (_ & _ & S0 & S1 & _ & S3 & S4 & S5 & S6 & S7 & _). rewrite <- S0, <- S1, <- S3, <- S4, <- S5, <- S6, <- S7 in N.
  destruct N as (N0 & N1 & N3 & N4 & N5 & N6 & N7). destruct I as (I0 & I1 & I3 & I4 & I5 & I6 & I7).
  unfold view_ok. cbn zeta. repeat split; auto; apply Hh; assumption.
Qed.

(** A section with its number has the right kind of body. *)
Lemma body_by_num : forall d x, header_at d x ->
  let pay := octets d (s_offset x + 5) (s_size x - 5) in
  (s_num x = 0 -> exists t, s_body x = Some (B0 (file_field d (s_offset x) 7 7) t)) /\
  (s_num x = 1 -> s_body x = Some (B1 pay) /\ 21 <= s_size x) /\
  (s_num x = 3 -> s_body x = Some (B3 pay) /\ 14 <= s_size x) /\
  (s_num x = 4 -> s_body x = Some (B4 pay) /\ 9 <= s_size x) /\
  (s_num x = 5 -> s_body x = Some (B5 pay) /\ 11 <= s_size x) /\
  (s_num x = 6 -> s_body x = Some (B6 (file_field d (s_offset x) 6 6))) /\
  (s_num x = 7 -> s_body x = Some B7).
Proof.
  intros d x H pay. pose proof (header_body d x H) as B.
  destruct (s_body x) as [[]|]; repeat split; intros; try lia; try reflexivity.
  all: try (destruct B as (_ & B & _); rewrite B; reflexivity).
  all: try (destruct B as (_ & -> & ->); eexists; reflexivity).
Qed.

Lemma view_parameter : forall d l v, view_ok d l v ->
  let f (x : Z * section) a b := file_field d (s_offset (snd x)) a b in
  v_parameter v = Ret (
    if existsb (Z.eqb (f (u_4 v) 8 9)) prod_templates && (11 <=? s_size (snd (u_4 v))) then
      Some (MkParameter (f (u_0 v) 7 7) (f (u_1 v) 6 7) (f (u_1 v) 10 10) (f (u_1 v) 11 11) (f (u_4 v) 10 10) (f (u_4 v) 11 11))
    else None).
Proof.
  intros d l v (V0 & V1 & _ & V4 & _) f. destruct V0 as (_ & H0 & N0). destruct V1 as (_ & H1 & N1). destruct V4 as (_ & H4 & N4).
  unfold v_parameter, v_indicator, v_identification, v_prod_def.
  destruct (body_by_num d _ H0) as (B0' & _). destruct (B0' N0) as (t0 & ->). cbn [bind].
  destruct (body_by_num d _ H1) as (_ & B1' & _). destruct (B1' N1) as (E1 & Hs1).
  destruct (body_by_num d _ H4) as (_ & _ & _ & B4' & _). destruct (B4' N4) as (E4 & Hs4).
  pose proof (file_fields_of _ _ H1) as F1. pose proof (file_fields_of _ _ H4) as F4. pose proof (header_body _ _ H4) as Hb4.
  rewrite E1 in *. rewrite E4 in *. cbn [bind]. destruct F1 as (-> & _ & -> & -> & _). cbn [bind]. destruct F4 as (_ & F4).
  set (p := octets d (s_offset (snd (u_4 v)) + 5) (s_size (snd (u_4 v)) - 5)) in *.
  destruct Hb4 as (_ & _ & _ & Hd). pose proof (proj1 H4) as H4p.
  assert (Hzp : zlen p = s_size (snd (u_4 v)) - 5) by (unfold p; rewrite zlen_octets by lia; lia).
  assert (R9 : reaches p 9) by (unfold reaches; lia).
  assert (Ft : prod_template p = f (u_4 v) 8 9).
  { rewrite (prod_num p R9) in F4. injection F4 as ->. reflexivity. }
  destruct (parameter_octets p R9) as (Y & N). unfold octet_if in Y.
  destruct (existsb (Z.eqb (f (u_4 v) 8 9)) prod_templates) eqn:E.
  - assert (Hi : In (prod_template p) prod_templates).
    { apply existsb_exists in E. destruct E as (x & Hx & E). apply Z.eqb_eq in E. rewrite Ft, E. exact Hx. }
    destruct (Y Hi) as (-> & ->). cbn [bind andb]. destruct (11 <=? s_size (snd (u_4 v))) eqn:E11.
    + replace (10 <=? zlen p + 5) with true by lia. replace (11 <=? zlen p + 5) with true by lia. cbn [bind].
      do 3 f_equal; apply field_in_file; lia.
    + replace (11 <=? zlen p + 5) with false by lia. destruct (10 <=? zlen p + 5); reflexivity.
  - assert (Hi : ~ In (prod_template p) prod_templates).
    { intro Hi. assert (existsb (Z.eqb (f (u_4 v) 8 9)) prod_templates = true); [|congruence].
      apply existsb_exists. exists (prod_template p). split; [exact Hi|]. apply Z.eqb_eq. symmetry. exact Ft. }
    destruct (N Hi) as (-> & ->). reflexivity.
Qed.

(** C54 *)
Lemma file_parameter : forall m fuel s g, grib2_read m fuel s = Ret (Ok g) -> zlen (data s) < 2 ^ 63 -> 0 <= pos s <= zlen (data s) ->
  forall w v, In w (g_subs g) -> make_view g w = Some v ->
  let f (x : Z * section) a b := file_field (data s) (s_offset (snd x)) a b in
  v_parameter v = Ret (
    if existsb (Z.eqb (f (u_4 v) 8 9)) prod_templates && (11 <=? s_size (snd (u_4 v))) then
      Some (MkParameter (f (u_0 v) 7 7) (f (u_1 v) 6 7) (f (u_1 v) 10 10) (f (u_1 v) 11 11) (f (u_4 v) 10 10) (f (u_4 v) 11 11))
    else None).
Proof. intros m fuel s g Hr Hd Hp w v Hw Hv. exact (view_parameter _ _ _ (file_views m fuel s g Hr Hd Hp w v Hw Hv)). Qed.

Lemma file_bodies : forall m fuel s g, grib2_read m fuel s = Ret (Ok g) -> zlen (data s) < 2 ^ 63 -> 0 <= pos s <= zlen (data s) ->
  forall w v, In w (g_subs g) -> make_view g w = Some v ->
  let pay (x : Z * section) := octets (data s) (s_offset (snd x) + 5) (s_size (snd x) - 5) in
  v_indicator v = Ret (file_field (data s) (s_offset (snd (u_0 v))) 7 7) /\ v_identification v = Ret (pay (u_1 v)) /\
  v_grid_def v = Ret (pay (u_3 v)) /\ v_prod_def v = Ret (pay (u_4 v)) /\ v_repr_def v = Ret (pay (u_5 v)).
Proof.
  intros m fuel s g Hr Hd Hp w v Hw Hv. destruct (file_views m fuel s g Hr Hd Hp w v Hw Hv) as ((_ & H0 & N0) & (_ & H1 & N1) & (_ & H3 & N3) & (_ & H4 & N4) & (_ & H5 & N5) & _).
  cbn zeta. unfold v_indicator, v_identification, v_grid_def, v_prod_def, v_repr_def.
  destruct (body_by_num _ _ H0) as (B & _). destruct (B N0) as (t & ->).
  destruct (body_by_num _ _ H1) as (_ & B1' & _). destruct (B1' N1) as (-> & _).
  destruct (body_by_num _ _ H3) as (_ & _ & B3' & _). destruct (B3' N3) as (-> & _).
  destruct (body_by_num _ _ H4) as (_ & _ & _ & B4' & _). destruct (B4' N4) as (-> & _).
  destruct (body_by_num _ _ H5) as (_ & _ & _ & _ & B5' & _). destruct (B5' N5) as (-> & _). auto.
Qed.

(** ** C42 *)
Lemma unit_of_code_spec : forall n u, unit_of_code n = Some u <-> unit_code u = n.
Proof.
  intros n u. split.
  - intros H. unfold unit_of_code in H. destruct n as [|q|q]; try discriminate; [injection H as <-; reflexivity|].
    do 8 (destruct q as [q|q|]; try discriminate; try (injection H as <-; reflexivity)).
  - intros <-. destruct u; reflexivity.
Qed.
Lemma units : forall n v,
  (forall u, n = unit_code u -> from_numbers n v = MkForecast (Name u) v) /\
  ((forall u, n <> unit_code u) -> from_numbers n v = MkForecast (Num n) v).
Proof.
  intros n v. unfold from_numbers, code_of. split.
  - intros u ->. replace (unit_of_code (unit_code u)) with (Some u) by (symmetry; apply unit_of_code_spec; reflexivity). reflexivity.
  - intros H. destruct (unit_of_code n) as [u|] eqn:E; [|reflexivity]. apply unit_of_code_spec in E. exfalso. apply (H u). auto.
Qed.
Lemma units_injective : forall n v n' v', from_numbers n v = from_numbers n' v' -> n = n' /\ v = v'.
Proof.
  intros n v n' v' H. unfold from_numbers, code_of in H. injection H as H ->. split; [|reflexivity].
  destruct (unit_of_code n) as [u|] eqn:E, (unit_of_code n') as [u'|] eqn:E'; try discriminate; injection H as ->.
  - apply unit_of_code_spec in E, E'. congruence.
  - reflexivity.
Qed.

(** ** C43 *)
Lemma as_u32_spec : forall m x, is_octet (discipline x) -> is_octet (category x) -> is_octet (pnum x) ->
  as_u32 m x = Ret (discipline x * 65536 + category x * 256 + pnum x).
Proof.
  intros m x Hd Hc Hn. unfold is_octet in *. unfold as_u32. rewrite !shl_ok by (cbn; lia). cbn [bind].
  rewrite !wrap_unsigned by reflexivity. change (2 ^ bits_of U32) with 4294967296. change (2 ^ 16) with 65536. change (2 ^ 8) with 256.
  rewrite !Z.mod_small by lia. rewrite arith_ok by mlia. cbn [bind]. rewrite arith_ok by mlia. reflexivity.
Qed.
Lemma identical_spec : forall m x c, is_octet (discipline x) -> is_octet (category x) -> is_octet (pnum x) ->
  exists b, is_identical_to m x c = Ret b /\ (b = true <-> (discipline x, category x, pnum x) = ncep_triple c).
Proof.
  intros m x c Hd Hc Hn. unfold is_identical_to. rewrite as_u32_spec by assumption. cbn [bind]. eexists. split; [reflexivity|].
  unfold is_octet in *. set (n := discipline x * 65536 + category x * 256 + pnum x).
  assert (E : forall a b k, 0 <= a < 256 -> 0 <= b < 256 -> 0 <= k < 256 -> (n = a * 65536 + b * 256 + k <-> (discipline x, category x, pnum x) = (a, b, k))).
  { intros a b k Ha Hb Hk. unfold n. split; [intros E; f_equal; [f_equal|]; lia|]. intros E. injection E as -> -> ->. reflexivity. }
  assert (C : ncep_of_code n = match n with 768 => Some PRES | 769 => Some PRMSL | 773 => Some HGT | _ => None end) by reflexivity.
  assert (D : n = 768 \/ n = 769 \/ n = 773 \/ (n <> 768 /\ n <> 769 /\ n <> 773)) by lia.
  destruct D as [D|[D|[D|D]]].
  - rewrite D. cbn. destruct c; cbn; [|split; [discriminate|]..].
    + split; [intros _; apply (E 0 3 0); lia|reflexivity].
    + intros X. apply (E 0 3 1) in X; lia.
    + intros X. apply (E 0 3 5) in X; lia.
  - rewrite D. cbn. destruct c; cbn; [split; [discriminate|]| |split; [discriminate|]].
    + intros X. apply (E 0 3 0) in X; lia.
    + split; [intros _; apply (E 0 3 1); lia|reflexivity].
    + intros X. apply (E 0 3 5) in X; lia.
  - rewrite D. cbn. destruct c; cbn; [split; [discriminate|]|split; [discriminate|]|].
    + intros X. apply (E 0 3 0) in X; lia.
    + intros X. apply (E 0 3 1) in X; lia.
    + split; [intros _; apply (E 0 3 5); lia|reflexivity].
  - assert (F : ncep_of_code n = None).
    { clearbody n. clear - D. unfold ncep_of_code. destruct n as [|q|q]; try reflexivity. do 10 (destruct q as [q|q|]; try reflexivity; try lia). }
    rewrite F. split; [discriminate|]. intros X. destruct c; cbn [ncep_triple] in X; [apply (E 0 3 0) in X|apply (E 0 3 1) in X|apply (E 0 3 5) in X]; lia.
Qed.
Lemma codes_injective : forall m x y n, is_octet (discipline x) -> is_octet (category x) -> is_octet (pnum x) ->
  is_octet (discipline y) -> is_octet (category y) -> is_octet (pnum y) ->
  as_u32 m x = Ret n -> as_u32 m y = Ret n -> (discipline x, category x, pnum x) = (discipline y, category y, pnum y).
Proof.
  intros m x y n A1 A2 A3 B1 B2 B3. rewrite !as_u32_spec by assumption. unfold is_octet in *. intros E1 E2.
  injection E1 as E1. injection E2 as E2. f_equal; [f_equal|]; lia.
Qed.

(** ** C44 *)
Lemma ref_time_spec : forall p, reaches p 19 ->
  let y := field p 13 14 in let mo := field p 15 15 in let d := field p 16 16 in
  let h := field p 17 17 in let mi := field p 18 18 in let s := field p 19 19 in
  ((exists n, civil n = (y, mo, d)) /\ h < 24 /\ mi < 60 /\ s < 60 -> ref_time p = Ret (Ok (MkDateTime y mo d h mi s))) /\
  (~ ((exists n, civil n = (y, mo, d)) /\ h < 24 /\ mi < 60 /\ s < 60) -> ref_time p = Ret (Err InvalidValueError)).
Proof.
  intros p H y mo d h mi s.
  assert (R : forall a, a <= 19 -> reaches p a) by (intros; unfold reaches in *; lia).
  assert (E : ref_time p = Ret (create_date_time y mo d h mi s)).
  { unfold ref_time, read_u16. rewrite (read_field 2 p 7 13 14) by (lia || (apply R; lia)). cbn [bind].
    rewrite (octet_field p 9 15) by (lia || (apply R; lia)). cbn [bind]. rewrite (octet_field p 10 16) by (lia || (apply R; lia)). cbn [bind].
    rewrite (octet_field p 11 17) by (lia || (apply R; lia)). cbn [bind]. rewrite (octet_field p 12 18) by (lia || (apply R; lia)). cbn [bind].
    rewrite (octet_field p 13 19) by (lia || (apply R; lia)). reflexivity. }
  rewrite E, <- civil_valid. unfold create_date_time, with_ymd_and_hms, valid_date.
  set (b := (1 <=? mo) && (mo <=? 12) && (1 <=? d) && (d <=? days_in_month y mo)). clearbody b.
  destruct b; cbn [andb]; [|split; [intros (X & _); discriminate|reflexivity]].
  destruct (h <? 24) eqn:E1, (mi <? 60) eqn:E2, (s <? 60) eqn:E3; cbn [andb]; split; intros X; try reflexivity; exfalso; try lia.
Qed.
