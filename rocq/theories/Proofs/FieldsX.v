(** Final statements about accessors. *)
From Coq Require Import Lia ZifyBool ZifyNat.
From Verif Require Import Model.Base Model.Helpers Model.Errors Model.Sections Model.Reader Model.Context Model.Product Model.F32 Model.Grid.
From Verif Require Import Spec.Bits Spec.ReaderS Spec.FieldsS Spec.GridS Proofs.BaseLemmas Proofs.HelpersP Proofs.ReaderP Proofs.FieldsP Proofs.ContextX.
Ltac Zify.zify_post_hook ::= Z.div_mod_to_equations.

Lemma header_body : forall d x, header_at d x ->
  match s_body x with
  | Some (B0 di t) => s_num x = 0 /\ di = file_field d (s_offset x) 7 7 /\ t = file_field d (s_offset x) 9 16
  | Some (B1 p) => s_num x = 1 /\ p = octets d (s_offset x + 5) (s_size x - 5) /\ 21 <= s_size x /\ s_offset x + s_size x <= zlen d
  | Some (B2 p) => s_num x = 2 /\ p = octets d (s_offset x + 5) (s_size x - 5)
  | Some (B3 p) => s_num x = 3 /\ p = octets d (s_offset x + 5) (s_size x - 5) /\ 14 <= s_size x /\ s_offset x + s_size x <= zlen d
  | Some (B4 p) => s_num x = 4 /\ p = octets d (s_offset x + 5) (s_size x - 5) /\ 9 <= s_size x /\ s_offset x + s_size x <= zlen d
  | Some (B5 p) => s_num x = 5 /\ p = octets d (s_offset x + 5) (s_size x - 5) /\ 11 <= s_size x /\ s_offset x + s_size x <= zlen d
  | Some (B6 i) => s_num x = 6 /\ i = file_field d (s_offset x) 6 6 /\ 6 <= s_size x
  | Some B7 => s_num x = 7
  | None => s_num x = 8
  end.
Proof.
  intros d x (H0 & H). destruct (s_num x =? 0) eqn:E0.
  { destruct H as (Hs & _ & ->). unfold file_field. split; [lia|]. split; f_equal; f_equal; lia. }
  destruct (s_num x =? 8) eqn:E8. { destruct H as (_ & -> & _). lia. }
  destruct H as (Hn & _ & _ & b & -> & (Hd & B)).
  destruct B as [B|[B|[B|[B|[B|[B|B]]]]]].
  1-5: destruct B as (Bn & -> & Bl); repeat split; lia || (apply Hd; lia) || reflexivity.
  - destruct B as (Bn & -> & Bl). unfold file_field. split; [lia|]. split; [f_equal; f_equal; lia|lia].
  - destruct B as (Bn & ->). lia.
Qed.

Lemma file_fields_of : forall d x, header_at d x ->
  match s_body x with
  | Some (B0 di t) => di = file_field d (s_offset x) 7 7 /\ t = file_field d (s_offset x) 9 16
  | Some (B1 p) =>
      centre_id p = Ret (file_field d (s_offset x) 6 7) /\ subcentre_id p = Ret (file_field d (s_offset x) 8 9) /\
      master_table_version p = Ret (file_field d (s_offset x) 10 10) /\ local_table_version p = Ret (file_field d (s_offset x) 11 11) /\
      ref_time_significance p = Ret (file_field d (s_offset x) 12 12) /\
      prod_status p = Ret (file_field d (s_offset x) 20 20) /\ data_type p = Ret (file_field d (s_offset x) 21 21)
  | Some (B3 p) => grid_num_points p = Ret (file_field d (s_offset x) 7 10) /\ grid_tmpl_num p = Ret (file_field d (s_offset x) 13 14)
  | Some (B4 p) => num_coordinates p = Ret (file_field d (s_offset x) 6 7) /\ prod_tmpl_num p = Ret (file_field d (s_offset x) 8 9)
  | Some (B5 p) => repr_num_points p = Ret (file_field d (s_offset x) 6 9) /\ repr_tmpl_num p = Ret (file_field d (s_offset x) 10 11)
  | Some (B6 i) => i = file_field d (s_offset x) 6 6
  | _ => True
  end.
Proof.
  intros d x H. pose proof (proj1 H) as H0. pose proof (header_body d x H) as B.
  assert (F : forall a b, 6 <= a <= b -> b <= s_size x -> field (octets d (s_offset x + 5) (s_size x - 5)) a b = file_field d (s_offset x) a b)
    by (intros; apply field_in_file; lia).
  destruct (s_body x) as [[di t|p|p|p|p|p|i| ]|]; try exact I; try tauto.
  all: destruct B as (_ & -> & B1 & B2).
  all: assert (R : forall a, a <= s_size x -> 5 <= s_size x -> reaches (octets d (s_offset x + 5) (s_size x - 5)) a)
    by (intros a Ha Hs; unfold reaches; rewrite zlen_octets by lia; lia).
  - repeat split; rewrite <- F by lia.
    1-2: apply read_field; try lia; apply R; lia.
    all: apply octet_field; try lia; apply R; lia.
  - split; rewrite <- F by lia; apply read_field; try lia; apply R; lia.
  - split; rewrite <- F by lia; apply read_field; try lia; apply R; lia.
  - split; rewrite <- F by lia; apply read_field; try lia; apply R; lia.
Qed.

(** C38 *)
Lemma file_fields : forall m fuel s g, grib2_read m fuel s = Ret (Ok g) -> zlen (data s) < 2 ^ 63 -> 0 <= pos s <= zlen (data s) ->
  forall x, In x (g_sections g) ->
  let f a b := file_field (data s) (s_offset x) a b in
  match s_body x with
  | Some (B0 di t) => s_num x = 0 /\ di = f 7 7 /\ t = f 9 16
  | Some (B1 p) => s_num x = 1 /\
      centre_id p = Ret (f 6 7) /\ subcentre_id p = Ret (f 8 9) /\
      master_table_version p = Ret (f 10 10) /\ local_table_version p = Ret (f 11 11) /\
      ref_time_significance p = Ret (f 12 12) /\
      prod_status p = Ret (f 20 20) /\ data_type p = Ret (f 21 21)
  | Some (B2 _) => s_num x = 2
  | Some (B3 p) => s_num x = 3 /\ grid_num_points p = Ret (f 7 10) /\ grid_tmpl_num p = Ret (f 13 14)
  | Some (B4 p) => s_num x = 4 /\ num_coordinates p = Ret (f 6 7) /\ prod_tmpl_num p = Ret (f 8 9)
  | Some (B5 p) => s_num x = 5 /\ repr_num_points p = Ret (f 6 9) /\ repr_tmpl_num p = Ret (f 10 11)
  | Some (B6 i) => s_num x = 6 /\ i = f 6 6
  | Some B7 => s_num x = 7
  | None => s_num x = 8
  end.
Proof.
  intros m fuel s g Hr Hd Hp x Hx. pose proof (file_sections_headers m fuel s g Hr Hd Hp) as Hh.
  rewrite Forall_forall in Hh. specialize (Hh x Hx). pose proof (header_body _ _ Hh) as A. pose proof (file_fields_of _ _ Hh) as B.
  cbn zeta. destruct (s_body x) as [[]|]; tauto.
Qed.

(** Payloads are refused exactly when too short for the fixed part. *)
Lemma short_payloads : forall num p, 1 <= num <= 5 ->
  from_payload num p =
  (let need := match num with 1 => 21 | 2 => 5 | 3 => 14 | 4 => 9 | _ => 11 end in
   if zlen p + 5 <? need then Err (ReadErrorTooSmall (zlen p))
   else Ok (match num with 1 => B1 p | 2 => B2 p | 3 => B3 p | 4 => B4 p | _ => B5 p end)).
Proof.
  intros num p H. unfold from_payload. pose proof (zlen_nonneg _ p).
  assert (num = 1 \/ num = 2 \/ num = 3 \/ num = 4 \/ num = 5) as [->|[->|[->|[->| ->]]]] by lia; cbn zeta.
  2: replace (zlen p + 5 <? 5) with false by lia; reflexivity.
  - replace (zlen p + 5 <? 21) with (zlen p <? 16) by lia. reflexivity.
  - replace (zlen p + 5 <? 14) with (zlen p <? 9) by lia. reflexivity.
  - replace (zlen p + 5 <? 9) with (zlen p <? 4) by lia. reflexivity.
  - replace (zlen p + 5 <? 11) with (zlen p <? 6) by lia. reflexivity.
Qed.

(** ** C39 *)
Lemma slice_from_octets : forall (p : list byte) n, 0 <= n <= zlen p -> slice_from p n = Ret (octets p n (zlen p - n)).
Proof.
  intros p n H. unfold slice_from. rewrite slice_ok by lia. reflexivity.
Qed.
Lemma field_shift : forall p n a b, 0 <= n -> 6 <= a <= b -> reaches p (n + b) ->
  field (octets p n (zlen p - n)) a b = field p (n + a) (n + b).
Proof.
  intros p n a b Hn Ha Hr. unfold field, reaches in *. rewrite octets_octets by lia. f_equal. f_equal; lia.
Qed.
Lemma sfield_shift : forall p n a b, 0 <= n -> 6 <= a <= b -> reaches p (n + b) ->
  sfield (octets p n (zlen p - n)) a b = sfield p (n + a) (n + b).
Proof. intros. unfold sfield. rewrite field_shift by assumption. f_equal. lia. Qed.
Lemma reaches_shift : forall p n a, 0 <= n <= zlen p -> reaches p (n + a) -> reaches (octets p n (zlen p - n)) a.
Proof. intros p n a Hn Ha. unfold reaches in *. rewrite zlen_octets by lia. lia. Qed.

Ltac flds R := repeat (
  lazymatch goal with
  | |- context [read_u8 ?q ?o] => change (read_u8 q o) with (read_be 1 q o); rewrite (read_field 1 q o (o + 6) (o + 6)) by (reflexivity || lia || (apply R; lia)); cbn [bind]
  | |- context [read_u32 ?q ?o] => change (read_u32 q o) with (read_be 4 q o); rewrite (read_field 4 q o (o + 6) (o + 9)) by (reflexivity || lia || (apply R; lia)); cbn [bind]
  | |- context [read_i32 ?m ?q ?o] => rewrite (read_sfield m q o (o + 6) (o + 9)) by (reflexivity || lia || (apply R; lia)); cbn [bind]
  end).

Lemma latlon_parsed : forall m p, reaches p 72 -> exists b, slice_from p 25 = Ret b /\ latlon_from_buf m b = Ret (latlon_fields p).
Proof.
  intros m p Hp. unfold reaches in Hp. eexists. split; [apply slice_from_octets; lia|].
  assert (R : forall a, a <= 47 -> reaches (octets p 25 (zlen p - 25)) a) by (intros; apply reaches_shift; unfold reaches; lia).
  assert (R2 : forall a, a <= 72 -> reaches p a) by (intros; unfold reaches; lia).
  unfold latlon_from_buf. flds R. unfold latlon_fields. do 2 f_equal; (rewrite field_shift || rewrite sfield_shift); reflexivity || lia || (apply R2; lia).
Qed.
Lemma gaussian_parsed : forall m p, reaches p 72 -> exists b, slice_from p 25 = Ret b /\ gaussian_from_buf m b = Ret (gaussian_fields p).
Proof.
  intros m p Hp. unfold reaches in Hp. eexists. split; [apply slice_from_octets; lia|].
  assert (R : forall a, a <= 47 -> reaches (octets p 25 (zlen p - 25)) a) by (intros; apply reaches_shift; unfold reaches; lia).
  assert (R2 : forall a, a <= 72 -> reaches p a) by (intros; unfold reaches; lia).
  unfold gaussian_from_buf. flds R. unfold gaussian_fields. do 2 f_equal; (rewrite field_shift || rewrite sfield_shift); reflexivity || lia || (apply R2; lia).
Qed.
Lemma earth_parsed : forall p, reaches p 30 -> earth_from_buf (octets p 9 (zlen p - 9)) = Ret (earth_fields p).
Proof.
  intros p Hp. unfold reaches in Hp.
  assert (R : forall a, a <= 21 -> reaches (octets p 9 (zlen p - 9)) a) by (intros; apply reaches_shift; unfold reaches; lia).
  assert (R2 : forall a, a <= 30 -> reaches p a) by (intros; unfold reaches; lia).
  unfold earth_from_buf. flds R. unfold earth_fields. do 2 f_equal; rewrite field_shift; reflexivity || lia || (apply R2; lia).
Qed.
Lemma polar_parsed : forall m p, reaches p 65 -> exists b, slice_from p 9 = Ret b /\ polar_from_buf m b = Ret (polar_fields p).
Proof.
  intros m p Hp. unfold reaches in Hp. eexists. split; [apply slice_from_octets; lia|].
  assert (R : forall a, a <= 56 -> reaches (octets p 9 (zlen p - 9)) a) by (intros; apply reaches_shift; unfold reaches; lia).
  assert (R2 : forall a, a <= 65 -> reaches p a) by (intros; unfold reaches; lia).
  unfold polar_from_buf. rewrite earth_parsed by (apply R2; lia). cbn [bind]. flds R. unfold polar_fields.
  do 2 f_equal; (rewrite field_shift || rewrite sfield_shift); reflexivity || lia || (apply R2; lia).
Qed.
Lemma lambert_parsed : forall m p, reaches p 73 -> exists b, slice_from p 9 = Ret b /\ lambert_from_buf m b = Ret (lambert_fields p).
Proof.
  intros m p Hp. unfold reaches in Hp. eexists. split; [apply slice_from_octets; lia|].
  assert (R : forall a, a <= 64 -> reaches (octets p 9 (zlen p - 9)) a) by (intros; apply reaches_shift; unfold reaches; lia).
  assert (R2 : forall a, a <= 73 -> reaches p a) by (intros; unfold reaches; lia).
  unfold lambert_from_buf. rewrite earth_parsed by (apply R2; lia). cbn [bind]. flds R. unfold lambert_fields.
  do 2 f_equal; (rewrite field_shift || rewrite sfield_shift); reflexivity || lia || (apply R2; lia).
Qed.

Lemma grid_parsed : forall m p, reaches p 14 ->
  (grid_template p = 0 -> zlen p + 5 = 72 -> grid_of_payload m p = Ret (Ok (Template0 (latlon_fields p)))) /\
  (grid_template p = 40 -> zlen p + 5 = 72 -> grid_of_payload m p = Ret (Ok (Template40 (gaussian_fields p)))) /\
  (grid_template p = 20 -> reaches p 65 -> grid_of_payload m p = Ret (Ok (Template20 (polar_fields p)))) /\
  (grid_template p = 30 -> reaches p 73 -> grid_of_payload m p = Ret (Ok (Template30 (lambert_fields p)))).
Proof.
  intros m p Hp. unfold grid_of_payload, grid_template. unfold read_u16. rewrite (read_field 2 p 7 13 14) by (reflexivity || lia || assumption). cbn [bind].
  split; [|split; [|split]]; intros -> Hl.
  - replace (67 <? zlen p) with false by lia. destruct (latlon_parsed m p) as (b & -> & E); [unfold reaches; lia|]. cbn [bind]. rewrite E. reflexivity.
  - replace (67 <? zlen p) with false by lia. destruct (gaussian_parsed m p) as (b & -> & E); [unfold reaches; lia|]. cbn [bind]. rewrite E. reflexivity.
  - destruct (polar_parsed m p Hl) as (b & -> & E). cbn [bind]. rewrite E. reflexivity.
  - destruct (lambert_parsed m p Hl) as (b & -> & E). cbn [bind]. rewrite E. reflexivity.
Qed.

Lemma grid_not_supported : forall m p, reaches p 14 ->
  (grid_of_payload m p = Ret (Err NotSupported) <->
   (~ In (grid_template p) [0; 20; 30; 40]) \/ (In (grid_template p) [0; 40] /\ 72 < zlen p + 5)).
Proof.
  intros m p Hp. unfold grid_of_payload, grid_template. unfold read_u16. rewrite (read_field 2 p 7 13 14) by (reflexivity || lia || assumption). cbn [bind].
  set (t := field p 13 14). clearbody t.
  assert (D : t = 0 \/ t = 20 \/ t = 30 \/ t = 40 \/ (t <> 0 /\ t <> 20 /\ t <> 30 /\ t <> 40)) by lia.
  destruct D as [->|[->|[->|[->|D]]]].
  - destruct (67 <? zlen p) eqn:E; cbn [In]; [split; [intros _; right; lia|reflexivity]|]. split; [|intros [H|H]; lia].
    intros H. exfalso. destruct (slice_from p 25); cbn [bind] in H; try discriminate. destruct (latlon_from_buf m _); cbn [bind] in H; discriminate.
  - cbn [In]. split; [|intros [H|H]; lia]. intros H. exfalso. destruct (slice_from p 9); cbn [bind] in H; try discriminate. destruct (polar_from_buf m _); cbn [bind] in H; discriminate.
  - cbn [In]. split; [|intros [H|H]; lia]. intros H. exfalso. destruct (slice_from p 9); cbn [bind] in H; try discriminate. destruct (lambert_from_buf m _); cbn [bind] in H; discriminate.
  - destruct (67 <? zlen p) eqn:E; cbn [In]; [split; [intros _; right; lia|reflexivity]|]. split; [|intros [H|H]; lia].
    intros H. exfalso. destruct (slice_from p 25); cbn [bind] in H; try discriminate. destruct (gaussian_from_buf m _); cbn [bind] in H; discriminate.
  - cbn [In]. split; [intros _; left; lia|]. intros _.
    destruct t as [|t|t]; try reflexivity; [lia|]. destruct D as (_ & D1 & D2 & D3).
    do 6 (destruct t as [t|t|]; try reflexivity; try lia).
Qed.

Lemma read_be_total : forall n b o, 0 <= n -> (exists x, read_be n b o = Ret x) \/ read_be n b o = Panic.
Proof.
  intros n b o Hn. destruct (Z_le_gt_dec 0 o) as [H0|H0]; [destruct (Z_le_gt_dec (o + n) (zlen b)) as [H1|H1]|].
  - left. eexists. apply read_be_spec; lia.
  - right. apply read_be_panic; lia.
  - right. apply read_be_panic; lia.
Qed.
Lemma read_i32_total : forall m b o, (exists x, read_i32 m b o = Ret x) \/ read_i32 m b o = Panic.
Proof.
  intros m b o. unfold read_i32, read_u32. destruct (read_be_total 4 b o ltac:(lia)) as [(x & E)|E]; rewrite E; cbn [bind]; [left|auto].
  eexists. apply (as_grib_int_spec m U32 I32); [unfold grib_pair; auto|]. apply read_be_range in E. change (bits_of U32) with 32. lia.
Qed.
Ltac tot := repeat match goal with
  | |- context [read_u8 ?q ?o] => change (read_u8 q o) with (read_be 1 q o)
  | |- context [read_u32 ?q ?o] => change (read_u32 q o) with (read_be 4 q o)
  | |- context [read_be ?n ?q ?o] => destruct (read_be_total n q o ltac:(lia)) as [(? & ->)| ->]; [|reflexivity]; cbn [bind]
  | |- context [read_i32 ?m ?q ?o] => destruct (read_i32_total m q o) as [(? & ->)| ->]; [|reflexivity]; cbn [bind]
  end.
Lemma grid_truncated : forall m p, reaches p 14 -> In (grid_template p) [0; 20; 30; 40] -> ~ reaches p (grid_end (grid_template p)) ->
  grid_of_payload m p = Panic.
Proof.
  intros m p Hp Ht Hr. unfold grid_of_payload. unfold read_u16. rewrite (read_field 2 p 7 13 14) by (reflexivity || lia || assumption). cbn [bind].
  fold (grid_template p). destruct Ht as [E|[E|[E|[E|[]]]]]; rewrite <- E in *; cbn [grid_end] in Hr; unfold reaches in Hr, Hp.
  - replace (67 <? zlen p) with false by lia. destruct (Z_le_gt_dec 25 (zlen p)) as [L|L].
    + rewrite slice_from_octets by lia. cbn [bind]. set (b := octets p 25 (zlen p - 25)). assert (Hb : zlen b < 42) by (unfold b; rewrite zlen_octets by lia; lia).
      assert (P : read_be 1 b 41 = Panic) by (apply read_be_panic; lia). unfold latlon_from_buf. change (read_u8 b 41) with (read_be 1 b 41). rewrite P. tot. reflexivity.
    + unfold slice_from. rewrite slice_panic by lia. reflexivity.
  - rewrite slice_from_octets by lia. cbn [bind]. set (b := octets p 9 (zlen p - 9)). assert (Hb : zlen b < 51) by (unfold b; rewrite zlen_octets by lia; lia).
    assert (P : read_be 1 b 50 = Panic) by (apply read_be_panic; lia). unfold polar_from_buf, earth_from_buf. change (read_u8 b 50) with (read_be 1 b 50). rewrite P. tot. reflexivity.
  - rewrite slice_from_octets by lia. cbn [bind]. set (b := octets p 9 (zlen p - 9)). assert (Hb : zlen b < 59) by (unfold b; rewrite zlen_octets by lia; lia).
    assert (P : read_be 4 b 55 = Panic) by (apply read_be_panic; lia).
    assert (P' : read_i32 m b 55 = Panic) by (unfold read_i32, read_u32; rewrite P; reflexivity).
    unfold lambert_from_buf, earth_from_buf. rewrite P'. tot. reflexivity.
  - replace (67 <? zlen p) with false by lia. destruct (Z_le_gt_dec 25 (zlen p)) as [L|L].
    + rewrite slice_from_octets by lia. cbn [bind]. set (b := octets p 25 (zlen p - 25)). assert (Hb : zlen b < 42) by (unfold b; rewrite zlen_octets by lia; lia).
      assert (P : read_be 1 b 41 = Panic) by (apply read_be_panic; lia). unfold gaussian_from_buf. change (read_u8 b 41) with (read_be 1 b 41). rewrite P. tot. reflexivity.
    + unfold slice_from. rewrite slice_panic by lia. reflexivity.
Qed.
