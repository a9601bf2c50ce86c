(** Product definitions. *)
From Coq Require Import Lia ZifyBool ZifyNat Floats.SpecFloat.
From Verif Require Import Model.Base Model.Helpers Model.Errors Model.Sections Model.Product.
From Verif Require Import Spec.Bits Spec.ReaderS Spec.FieldsS Spec.ProductS Proofs.BaseLemmas Proofs.HelpersP Proofs.ReaderP Proofs.FieldsP.
Ltac Zify.zify_post_hook ::= Z.div_mod_to_equations.


Lemma prod_num : forall p, reaches p 9 -> prod_tmpl_num p = Ret (prod_template p).
Proof. intros p H. unfold prod_tmpl_num, read_u16. apply (read_field 2); try lia. exact H. Qed.

Lemma supported_iff : forall p, reaches p 9 -> exists b, template_supported p = Ret b /\ (b = true <-> In (prod_template p) prod_templates).
Proof.
  intros p H. unfold template_supported. rewrite prod_num by assumption. cbn [bind]. eexists. split; [reflexivity|].
  rewrite existsb_exists. change prod_templates with SUPPORTED_PROD_DEF_TEMPLATE_NUMBERS. split.
  - intros (x & Hx & E). apply Z.eqb_eq in E. subst x. exact Hx.
  - intros Hx. eexists. split; [exact Hx|]. apply Z.eqb_refl.
Qed.
Lemma if_supported_yes : forall A p k, reaches p 9 -> In (prod_template p) prod_templates -> @if_supported A p k = k.
Proof. intros A p k H Hi. unfold if_supported. destruct (supported_iff p H) as (b & -> & Hb). apply Hb in Hi. subst b. reflexivity. Qed.
Lemma if_supported_no : forall A p k, reaches p 9 -> ~ In (prod_template p) prod_templates -> @if_supported A p k = Ret None.
Proof. intros A p k H Hi. unfold if_supported. destruct (supported_iff p H) as ([] & -> & Hb); [tauto|reflexivity]. Qed.

Lemma get_octet_if : forall p i a, a = i + 6 -> 0 <= i -> get_octet p i = octet_if p a.
Proof.
  intros p i a Ha Hi. unfold octet_if. destruct (Z.leb_spec a (zlen p + 5)); [apply get_octet_field; try lia; exact H|].
  apply (get_octet_none p i a); try lia. unfold reaches. lia.
Qed.

(** C40 *)
Lemma parameter_octets : forall p, reaches p 9 ->
  (In (prod_template p) prod_templates -> parameter_category p = Ret (octet_if p 10) /\ parameter_number p = Ret (octet_if p 11)) /\
  (~ In (prod_template p) prod_templates -> parameter_category p = Ret None /\ parameter_number p = Ret None).
Proof.
  intros p H. unfold parameter_category, parameter_number. split; intros Hi.
  - rewrite !if_supported_yes by assumption. unfold START_OF_PROD_TEMPLATE. rewrite (get_octet_if p 4 10), (get_octet_if p (4 + 1) 11) by lia. auto.
  - rewrite !if_supported_no by assumption. auto.
Qed.

Definition same_index (idx : list (Z * Z * Z)) (oct : Z -> option Z) (skip : list Z) : bool :=
  forallb (fun t => existsb (Z.eqb t) skip ||
    match range_match t idx, oct t with Some i, Some o => (0 <=? i) && (i + 10 =? o) | None, None => true | _, _ => false end) prod_templates.
Lemma same_index_ok : forall idx oct skip t, same_index idx oct skip = true -> In t prod_templates -> ~ In t skip ->
  match oct t with Some o => exists i, range_match t idx = Some i /\ 0 <= i /\ o = i + 10 | None => range_match t idx = None end.
Proof.
  intros idx oct skip t H Ht Hs. unfold same_index in H. rewrite forallb_forall in H. specialize (H t Ht).
  apply orb_true_iff in H. destruct H as [H|H].
  - apply existsb_exists in H. destruct H as (x & Hx & E). apply Z.eqb_eq in E. subst x. contradiction.
  - destruct (range_match t idx) as [i|], (oct t) as [o|]; try discriminate; [exists i; split; [reflexivity|]; lia|reflexivity].
Qed.

Lemma generating_octets : forall p, reaches p 9 -> ~ In (prod_template p) [47; 83; 254] ->
  generating_process p = Ret (if existsb (Z.eqb (prod_template p)) prod_templates then
    match generating_octet (prod_template p) with Some a => octet_if p a | None => None end else None).
Proof.
  intros p H Hs. unfold generating_process. set (t := prod_template p).
  destruct (existsb (Z.eqb t) prod_templates) eqn:E.
  - assert (Hi : In t prod_templates) by (apply existsb_exists in E; destruct E as (x & Hx & E); apply Z.eqb_eq in E; subst x; exact Hx).
    rewrite if_supported_yes by assumption. rewrite prod_num by assumption. cbn [bind].
    pose proof (same_index_ok generating_index generating_octet [47; 83; 254] t ltac:(vm_compute; reflexivity) Hi Hs) as S. fold t.
    destruct (generating_octet t) as [o|]; [|rewrite S; reflexivity]. destruct S as (i & -> & Hi0 & ->).
    f_equal. apply get_octet_if; unfold START_OF_PROD_TEMPLATE; lia.
  - rewrite if_supported_no; [reflexivity|assumption|]. intros Hi. assert (existsb (Z.eqb t) prod_templates = true); [|congruence].
    apply existsb_exists. exists t. split; [exact Hi|apply Z.eqb_refl].
Qed.

Lemma generating_wrong : forall p, reaches p 9 -> In (prod_template p) [47; 83; 254] -> generating_process p = Ret (octet_if p 12).
Proof.
  intros p H Hs. unfold generating_process. rewrite if_supported_yes; [|assumption|cbn [In] in *; unfold prod_templates; cbn [In]; lia].
  rewrite prod_num by assumption. cbn [bind].
  destruct Hs as [E|[E|[E|[]]]]; rewrite <- E; cbn; f_equal; apply get_octet_if; unfold START_OF_PROD_TEMPLATE; lia.
Qed.

(** Forecast time *)
Lemma forecast_octets : forall p t, reaches p 9 -> prod_template p = t -> In t prod_templates -> t <> 44 ->
  match unit_octet t with
  | Some a => if a + 4 <=? zlen p + 5 then forecast_time p = Ret (Some (from_numbers (field p a a) (field p (a + 1) (a + 4))))
              else forecast_time p = Panic
  | None => forecast_time p = Ret None
  end.
Proof.
  intros p t H Et Hi H44. unfold forecast_time. rewrite if_supported_yes by (try rewrite Et; assumption). rewrite prod_num by assumption. cbn [bind]. rewrite Et.
  pose proof (same_index_ok forecast_index unit_octet [44] t ltac:(vm_compute; reflexivity) Hi ltac:(cbn [In]; lia)) as S.
  destruct (unit_octet t) as [o|]; [|rewrite S; reflexivity]. destruct S as (i & -> & Hi0 & ->).
  unfold START_OF_PROD_TEMPLATE, read_u32. destruct (Z.leb_spec (i + 10 + 4) (zlen p + 5)).
  - rewrite (read_field 4 p (4 + i + 1) (i + 10 + 1) (i + 10 + 4)) by (try lia; unfold reaches; lia). cbn [bind].
    rewrite (get_octet_field p (4 + i) (i + 10)) by (try lia; unfold reaches; lia). reflexivity.
  - rewrite read_be_panic by lia. reflexivity.
Qed.
Lemma forecast_44 : forall p, reaches p 35 -> prod_template p = 44 ->
  forecast_time p = Ret (Some (from_numbers (field p 31 31) (field p 32 35))).
Proof.
  intros p H Et. assert (reaches p 9) by (unfold reaches in *; lia). unfold forecast_time. rewrite if_supported_yes; [|assumption|rewrite Et; vm_compute; tauto].
  rewrite prod_num by assumption. cbn [bind]. rewrite Et. unfold reaches in *.
  change (range_match 44 forecast_index) with (Some 21). unfold START_OF_PROD_TEMPLATE, read_u32.
  rewrite (read_field 4 p (4 + 21 + 1) 32 35) by (try lia; unfold reaches; lia). cbn [bind].
  rewrite (get_octet_field p (4 + 21) 31) by (try lia; unfold reaches; lia). reflexivity.
Qed.

(** Surfaces *)
Lemma surface_read : forall m p i, 0 <= i -> read_surface_from m p i =
  if i + 15 <=? zlen p + 5 then Ret (Some (surface_at p (i + 10))) else Panic.
Proof.
  intros m p i Hi. unfold read_surface_from, START_OF_PROD_TEMPLATE. destruct (Z.leb_spec (i + 15) (zlen p + 5)).
  - rewrite (get_octet_field p (4 + i) (i + 10)) by (try lia; unfold reaches; lia).
    rewrite (get_octet_field p (4 + i + 1) (i + 11)) by (try lia; unfold reaches; lia).
    pose proof (field_range p (i + 11) (i + 11) ltac:(lia)) as R. replace (i + 11 - (i + 11) + 1) with 1 in R by lia.
    destruct (as_grib_int_spec m U8 I8 (field p (i + 11) (i + 11))) as (-> & _); [unfold grib_pair; auto|change (bits_of U8) with 8; lia|]. cbn [bind].
    rewrite (read_sfield m p (4 + i + 2) (i + 12) (i + 15)) by (try lia; unfold reaches; lia). cbn [bind]. unfold surface_at, sfield.
    replace (i + 10 + 1) with (i + 11) by lia. replace (i + 10 + 2) with (i + 12) by lia. replace (i + 10 + 5) with (i + 15) by lia.
    replace (i + 11 - (i + 11) + 1) with 1 by lia. reflexivity.
  - assert (P : read_i32 m p (4 + i + 2) = Panic) by (unfold read_i32, read_u32; rewrite read_be_panic by lia; reflexivity).
    rewrite P. destruct (get_octet p (4 + i + 1)) as [v|] eqn:E; [|reflexivity].
    assert (Hv : 0 <= v < 2 ^ 8).
    { unfold get_octet in E. destruct (get p (4 + i + 1)) as [b|]; [|discriminate]. injection E as <-. pose proof (bz_range b). lia. }
    destruct (as_grib_int_spec m U8 I8 v) as (-> & _); [unfold grib_pair; auto|exact Hv|]. reflexivity.
Qed.

Lemma surface_octets : forall m p t, reaches p 9 -> prod_template p = t -> In t prod_templates ->
  match surface_octet t with
  | Some a => if a + 11 <=? zlen p + 5 then fixed_surfaces m p = Ret (Some (surface_at p a, surface_at p (a + 6)))
              else fixed_surfaces m p = Panic
  | None => fixed_surfaces m p = Ret None
  end.
Proof.
  intros m p t H Et Hi. unfold fixed_surfaces. rewrite if_supported_yes by (try rewrite Et; assumption). rewrite prod_num by assumption. cbn [bind]. rewrite Et.
  pose proof (same_index_ok surface_index surface_octet [] t ltac:(vm_compute; reflexivity) Hi ltac:(cbn [In]; tauto)) as S.
  destruct (surface_octet t) as [o|]; [|rewrite S; reflexivity]. destruct S as (i & -> & Hi0 & ->).
  rewrite !surface_read by lia. destruct (Z.leb_spec (i + 10 + 11) (zlen p + 5)).
  - replace (i + 15 <=? zlen p + 5) with true by lia. replace (i + 6 + 15 <=? zlen p + 5) with true by lia. cbn [bind].
    replace (i + 6 + 10) with (i + 10 + 6) by lia. reflexivity.
  - destruct (i + 15 <=? zlen p + 5); [|reflexivity]. cbn [bind]. replace (i + 6 + 15 <=? zlen p + 5) with false by lia. reflexivity.
Qed.
