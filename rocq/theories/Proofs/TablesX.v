(** Code tables from the files to the look-up. *)
From Coq Require Import Lia ZifyBool ZifyNat Strings.String.
From Verif Require Import Model.Base Model.Tools Model.Text Model.Tables Spec.ToolsS Spec.TablesS.
From Verif Require Import Proofs.BaseLemmas Proofs.ToolsP Proofs.ToolsX Proofs.TextP Proofs.TablesP.
Ltac Zify.zify_post_hook ::= Z.div_mod_to_equations.

(** ** Names *)
Definition u8 (x : Z) : Prop := 0 <= x < 256.
Definition arg_ok (a : opt_arg) : Prop := match a with ArgNone => True | ArgL1 d => u8 d | ArgL2 d c => u8 d /\ u8 c end.
Definition key_ok (k : Tables.key) : Prop := let '(s, n, a) := k in u8 s /\ u8 n /\ arg_ok a.

Lemma digits_then x y r r' : 0 <= x -> 0 <= y -> show_uint x ++ r = show_uint y ++ r' ->
  (forall c t, r = c :: t -> ~ 48 <= bz c <= 57) -> (forall c t, r' = c :: t -> ~ 48 <= bz c <= 57) -> x = y /\ r = r'.
Proof.
  intros Hx Hy E N N'. destruct (show_uint_spec x Hx) as ([_ Fx] & Dx & _). destruct (show_uint_spec y Hy) as ([_ Fy] & Dy & _).
  destruct (span_unique _ _ _ _ E Fx Fy N N') as [E1 E2]. split; [|exact E2]. rewrite <- Dx, E1, Dy. reflexivity.
Qed.
Lemma under_not_digit s : forall c t, str "_" ++ s = c :: t -> ~ 48 <= bz c <= 57.
Proof. intros c t E. cbn in E. injection E as <- _. change (bz x5f) with 95. lia. Qed.
Lemma nil_not_digit : forall c t, ([] : list byte) = c :: t -> ~ 48 <= bz c <= 57. Proof. discriminate. Qed.

Lemma name_inj k k' : key_ok k -> key_ok k' -> variable_name k = variable_name k' -> k = k'.
Proof.
  destruct k as [[s n] a], k' as [[s' n'] a']. intros (S & N & A) (S' & N' & A') E. unfold variable_name in E. apply app_inv_head in E.
  apply digits_then in E; [|unfold u8 in *; lia..|apply under_not_digit|apply under_not_digit]. destruct E as [-> E]. apply app_inv_head in E.
  assert (T : forall a, forall c t, match a with ArgNone => [] | ArgL1 d => str "_" ++ show_uint d | ArgL2 d c => str "_" ++ show_uint d ++ str "_" ++ show_uint c end = c :: t -> ~ 48 <= bz c <= 57).
  { intros [|d|d c]; [apply nil_not_digit|apply under_not_digit..]. }
  apply digits_then in E; [|unfold u8 in *; lia..|apply T|apply T]. destruct E as [-> E]. f_equal. unfold u8 in *.
  destruct a as [|d|d c], a' as [|d'|d' c']; cbn [arg_ok] in *; unfold u8 in *; try reflexivity; try (exfalso; discriminate); apply app_inv_head in E.
  - rewrite <- (app_nil_r (show_uint d)), <- (app_nil_r (show_uint d')) in E. apply digits_then in E; [|lia..|apply nil_not_digit|apply nil_not_digit]. destruct E as [-> _]. reflexivity.
  - rewrite <- (app_nil_r (show_uint d)) in E. apply digits_then in E; [|lia..|apply nil_not_digit|apply under_not_digit]. destruct E as [_ E]. discriminate.
  - rewrite <- (app_nil_r (show_uint d')) in E. apply digits_then in E; [|lia..|apply under_not_digit|apply nil_not_digit]. destruct E as [_ E]. discriminate.
  - apply digits_then in E; [|lia..|apply under_not_digit|apply under_not_digit]. destruct E as [-> E]. apply app_inv_head in E.
    rewrite <- (app_nil_r (show_uint c)), <- (app_nil_r (show_uint c')) in E. apply digits_then in E; [|lia..|apply nil_not_digit|apply nil_not_digit]. destruct E as [-> _]. reflexivity.
Qed.

(** ** Constants *)
Lemma name_eqb_spec a b : name_eqb a b = true <-> a = b.
Proof. unfold name_eqb. destruct (bytes_dec a b); split; congruence. Qed.

Lemma constants_get m : forall d cs, constants m d = Ret cs -> Forall key_ok (map fst d) -> forall k, key_ok k ->
  match db_get k d with
  | Some t => exists v, to_vec m (ct_rows t) = Ret v /\ assoc name_eqb (variable_name k) cs = Some v
  | None => assoc name_eqb (variable_name k) cs = None
  end.
Proof.
  induction d as [|[k' t] d IH]; intros cs H F k Hk; cbn [constants] in H.
  - injection H as <-. reflexivity.
  - destruct (to_vec m (ct_rows t)) as [v| |] eqn:V; try discriminate. cbn [bind] in H. destruct (constants m d) as [cs'| |]; try discriminate. cbn [bind] in H.
    injection H as <-. cbn [map fst] in F. apply Forall_cons_iff in F. destruct F as [Fk F]. cbn [db_get assoc].
    destruct (key_dec k k') as [->|N].
    + rewrite (proj2 (name_eqb_spec _ _) eq_refl). eauto.
    + destruct (name_eqb (variable_name k) (variable_name k')) eqn:E; [apply name_eqb_spec in E; destruct (N (name_inj _ _ Hk Fk E))|]. exact (IH cs' eq_refl F k Hk).
Qed.
Lemma constants_names m : forall d cs, constants m d = Ret cs -> map fst cs = map (fun x => variable_name (fst x)) d.
Proof.
  induction d as [|[k' t] d IH]; intros cs H; cbn [constants] in H; [injection H as <-; reflexivity|].
  destruct (to_vec m (ct_rows t)) as [v| |]; try discriminate. cbn [bind] in H. destruct (constants m d) as [cs'| |]; try discriminate. cbn [bind] in H.
  injection H as <-. cbn [map fst]. f_equal. now apply IH.
Qed.

(** ** Keys *)
Lemma subtitle_ok s a : subtitle s a -> arg_ok a.
Proof.
  intros [|n d r Nn _ _|n d r k c r' Nn _ _ Nk _]; cbn [arg_ok]; unfold u8; [exact I| |split];
    repeat match goal with H : numeral _ _ _ |- _ => apply numeral_range in H end; lia.
Qed.
Lemma records_args rs : forall acc ts, parse_records acc rs = Some ts -> Forall (fun x => arg_ok (fst x)) acc -> Forall (fun x => arg_ok (fst x)) ts.
Proof.
  induction rs as [|[x|] rs IH]; intros acc ts H F; cbn [parse_records] in H.
  - injection H as <-. apply Forall_rev. exact F.
  - destruct (parse_opt_arg (rec_subtitle x)) as [a|] eqn:P; [|discriminate]. apply subtitle_iff, subtitle_ok in P.
    destruct acc as [|[a' t] acc]; [eapply IH; [exact H|repeat constructor; exact P]|]. destruct (opt_arg_dec a a'); (eapply IH; [exact H|]).
    + inversion F. subst. constructor; assumption.
    + constructor; assumption.
  - discriminate.
Qed.
Lemma insert_keys k t (d : db) : key_ok k -> Forall key_ok (map fst d) -> Forall key_ok (map fst (db_insert k t d)).
Proof.
  intros K F. apply Forall_forall. intros x I. apply in_map_iff in I. destruct I as (y & <- & I). apply insert_in in I. destruct I as [->|I]; [exact K|].
  rewrite Forall_forall in F. apply F. now apply in_map.
Qed.
Lemma load_keys stem rs d d' : db_load stem rs d = Some d' -> Forall key_ok (map fst d) -> Forall key_ok (map fst d').
Proof.
  intros H F. destruct (db_load_cases stem rs d) as [(s & n & Nm)|[[_ E]|[_ E]]]; [|congruence|congruence].
  rewrite (db_load_name _ _ _ _ _ Nm) in H. destruct (parse_records [] rs) as [ts|] eqn:P; [|discriminate]. injection H as <-.
  apply records_args in P; [|constructor]. destruct Nm as (a & b & r & _ & A & B & _). apply numeral_range in A, B.
  revert d F P. induction ts as [|[x t] ts IH]; intros d F P; [exact F|]. cbn [fold_left fst snd]. inversion P as [|? ? Px P']. subst. apply IH; [|exact P'].
  apply insert_keys; [|exact F]. cbn [key_ok]. unfold u8. cbn [fst] in Px. repeat split; lia || exact Px.
Qed.

(** ** All files *)
Definition files := list (list byte * list (option csv_record)).
Definition load_all (fs : files) (d : option db) : option db :=
  fold_left (fun d f => match d with Some d => db_load (fst f) (snd f) d | None => None end) fs d.
Lemma load_all_none fs : load_all fs None = None.
Proof. induction fs as [|f fs IH]; [reflexivity|exact IH]. Qed.
Lemma load_all_cons f fs d : load_all (f :: fs) (Some d) = load_all fs (db_load (fst f) (snd f) d).
Proof. reflexivity. Qed.
Lemma load_all_keys fs : forall d d', load_all fs (Some d) = Some d' -> Forall key_ok (map fst d) -> Forall key_ok (map fst d').
Proof.
  induction fs as [|[stem rs] fs IH]; intros d d' H F; [injection H as <-; exact F|]. rewrite load_all_cons in H. cbn [fst snd] in H.
  destruct (db_load stem rs d) as [d1|] eqn:E; [|rewrite load_all_none in H; discriminate]. exact (IH _ _ H (load_keys _ _ _ _ E F)).
Qed.

Lemma name_fun stem s n s' n' : file_name stem s n -> file_name stem s' n' -> s = s' /\ n = n'.
Proof.
  intros A B. apply name_parsed in A, B. destruct A as (a & b & E & A1 & A2). destruct B as (a' & b' & E' & B1 & B2). rewrite E in E'.
  assert (a = a' /\ b = b') as [-> ->] by (split; congruence). split; congruence.
Qed.

Lemma load_same stem rs d d' s n a : db_load stem rs d = Some d' ->
  (forall x, file_name stem s n -> In (Some x) rs -> ~ is_for a x) -> db_get (s, n, a) d' = db_get (s, n, a) d.
Proof.
  intros H N. destruct (db_load_cases stem rs d) as [(s' & n' & Nm)|[[_ E]|[_ E]]]; [|congruence|congruence].
  pose proof H as H'. rewrite (db_load_name _ _ _ _ _ Nm) in H'. destruct (parse_records [] rs) as [ts|] eqn:P; [|discriminate].
  destruct (records_inv _ _ _ P) as (rs' & -> & F). destruct (load_ok _ _ _ rs' d Nm F) as (d2 & E2 & _ & Same). rewrite H in E2. injection E2 as <-.
  apply Same. destruct (Z.eq_dec s s') as [->|Ns]; [destruct (Z.eq_dec n n') as [->|Nn]|]; [right|left; congruence|left; congruence].
  apply Forall_forall. intros x I. apply N; [exact Nm|]. now apply in_map.
Qed.

Lemma load_all_same fs s n a : forall d d', load_all fs (Some d) = Some d' ->
  (forall stem rs x, In (stem, rs) fs -> file_name stem s n -> In (Some x) rs -> ~ is_for a x) -> db_get (s, n, a) d' = db_get (s, n, a) d.
Proof.
  induction fs as [|[stem rs] fs IH]; intros d d' H N; [injection H as <-; reflexivity|]. rewrite load_all_cons in H. cbn [fst snd] in H.
  destruct (db_load stem rs d) as [d1|] eqn:E; [|rewrite load_all_none in H; discriminate].
  rewrite (IH d1 d' H) by (intros; eapply N; [right; eassumption|eassumption..]). apply (load_same _ _ _ _ _ _ _ E). intros x. apply N. now left.
Qed.

Lemma load_all_provides fs s n a t d : load_all fs (Some []) = Some d -> provides fs s n a t -> db_get (s, n, a) d = Some t.
Proof.
  intros H (before & stem & rs & after & r & block & -> & Nm & Lb & -> & Later). unfold load_all in H. rewrite fold_left_app in H. cbn [fold_left fst snd] in H.
  fold (load_all before (Some [])) in H. destruct (load_all before (Some [])) as [d1|]; [|fold (load_all after None) in H; rewrite load_all_none in H; discriminate].
  destruct (db_load stem (map Some rs) d1) as [d2|] eqn:E; [|fold (load_all after None) in H; rewrite load_all_none in H; discriminate]. fold (load_all after (Some d2)) in H.
  rewrite (load_all_same after s n a d2 d H) by exact Later.
  pose proof E as E'. rewrite (db_load_name _ _ _ _ _ Nm) in E'. destruct (parse_records [] (map Some rs)) as [ts|] eqn:P; [|discriminate].
  destruct (records_inv _ _ _ P) as (rs' & Er & F). assert (rs' = rs). { clear - Er. revert rs' Er. induction rs as [|x rs IH]; intros [|y rs'] E; try discriminate; [reflexivity|]. cbn in E. injection E as -> E. f_equal. now apply IH. }
  subst rs'. destruct (load_ok _ _ _ rs d1 Nm F) as (d3 & E3 & G & _). rewrite E in E3. injection E3 as <-. exact (G a r block Lb).
Qed.

(** ** Common code tables *)
Definition cfiles := list (list byte * list (option row)).
Definition cct_all (fs : cfiles) (d : option cct_db) : option cct_db :=
  fold_left (fun d f => match d with Some d => cct_load (fst f) (snd f) d | None => None end) fs d.
Lemma cct_all_none fs : cct_all fs None = None.
Proof. induction fs as [|f fs IH]; [reflexivity|exact IH]. Qed.
Fixpoint cct_get (k : Z) (d : cct_db) : option code_table :=
  match d with [] => None | (k', t) :: d' => if Z.eq_dec k k' then Some t else cct_get k d' end.
Lemma cct_insert_get k k' t d : cct_get k' (cct_insert k t d) = if Z.eq_dec k' k then Some t else cct_get k' d.
Proof.
  induction d as [|[k2 t2] d IH]; cbn [cct_insert].
  - reflexivity.
  - destruct (k <? k2) eqn:A; [reflexivity|]. destruct (k2 <? k) eqn:B; cbn [cct_get].
    + rewrite IH. destruct (Z.eq_dec k' k2), (Z.eq_dec k' k); try reflexivity. lia.
    + assert (k2 = k) by lia. subst k2. destruct (Z.eq_dec k' k); reflexivity.
Qed.
Definition cct_stem (k : Z) : list byte := if Z.eq_dec k 0 then str "C00" else str "C11".
Definition cct_title (k : Z) : list byte := if Z.eq_dec k 0 then str "Common Code Table C-0" else str "Common Code Table C-11".
Lemma all_records_some {A} (l : list A) : all_records (map Some l) = Some l.
Proof. induction l as [|x l IH]; [reflexivity|]. cbn [map all_records]. now rewrite IH. Qed.
Lemma all_records_inv {A} (rs : list (option A)) l : all_records rs = Some l -> rs = map Some l.
Proof.
  revert l. induction rs as [|[x|] rs IH]; intros l H; cbn [all_records] in H; [injection H as <-; reflexivity| |discriminate].
  destruct (all_records rs) as [l'|]; [|discriminate]. injection H as <-. cbn [map]. f_equal. now apply IH.
Qed.

Lemma cct_load_get stem rs d d' k : cct_load stem rs d = Some d' -> k = 0 \/ k = 11 ->
  (stem = cct_stem k -> exists rows, rs = map Some rows /\ cct_get k d' = Some (MkTable (cct_title k) rows)) /\
  (stem <> cct_stem k -> cct_get k d' = cct_get k d).
Proof.
  intros H Hk. unfold cct_load in H. destruct (bytes_dec stem (str "C00")) as [->|N0].
  - destruct (all_records rs) as [rows|] eqn:A; [|discriminate]. injection H as <-. apply all_records_inv in A. rewrite cct_insert_get.
    destruct Hk as [->| ->]; cbn; (split; [try discriminate|try congruence]); intros _; eauto.
  - destruct (bytes_dec stem (str "C11")) as [->|N1].
    + destruct (all_records rs) as [rows|] eqn:A; [|discriminate]. injection H as <-. apply all_records_inv in A. rewrite cct_insert_get.
      destruct Hk as [->| ->]; cbn; (split; [try discriminate|try congruence]); intros _; eauto.
    + injection H as <-. split; [|reflexivity]. intros ->. exfalso. destruct Hk as [->| ->]; [now apply N0|now apply N1].
Qed.
Lemma cct_all_same fs k : k = 0 \/ k = 11 -> forall d d', cct_all fs (Some d) = Some d' -> (forall rs, ~ In (cct_stem k, rs) fs) -> cct_get k d' = cct_get k d.
Proof.
  intros Hk. induction fs as [|[stem rs] fs IH]; intros d d' H N; [injection H as <-; reflexivity|].
  change (cct_all ((stem, rs) :: fs) (Some d)) with (cct_all fs (cct_load stem rs d)) in H.
  destruct (cct_load stem rs d) as [d1|] eqn:E; [|rewrite cct_all_none in H; discriminate].
  rewrite (IH _ _ H) by (intros rs' I; apply (N rs'); now right). destruct (cct_load_get _ _ _ _ k E Hk) as [_ G]. apply G. intros ->. apply (N rs). now left.
Qed.
Lemma cct_all_provides fs k d rows : k = 0 \/ k = 11 -> cct_all fs (Some []) = Some d -> provides_cct fs (cct_stem k) rows ->
  cct_get k d = Some (MkTable (cct_title k) rows).
Proof.
  intros Hk H (before & after & -> & Later). unfold cct_all in H. rewrite fold_left_app in H. cbn [fold_left fst snd] in H.
  fold (cct_all before (Some [])) in H. destruct (cct_all before (Some [])) as [d1|]; [|fold (cct_all after None) in H; rewrite cct_all_none in H; discriminate].
  destruct (cct_load (cct_stem k) (map Some rows) d1) as [d2|] eqn:E; [|fold (cct_all after None) in H; rewrite cct_all_none in H; discriminate]. fold (cct_all after (Some d2)) in H.
  rewrite (cct_all_same after k Hk d2 d H Later). destruct (cct_load_get _ _ _ _ k E Hk) as [G _]. destruct (G eq_refl) as (rows' & Er & ->).
  assert (rows = rows') as ->; [|reflexivity]. clear - Er. revert rows' Er. induction rows as [|x l IH]; intros [|y l'] E; try discriminate; [reflexivity|]. cbn in E. injection E as -> E. f_equal. now apply IH.
Qed.
Lemma cct_keys fs : forall d d', cct_all fs (Some d) = Some d' -> Forall (fun x => fst x = 0 \/ fst x = 11) d -> Forall (fun x => fst x = 0 \/ fst x = 11) d'.
Proof.
  assert (Ins : forall k t (d : cct_db), k = 0 \/ k = 11 -> Forall (fun x => fst x = 0 \/ fst x = 11) d -> Forall (fun x => fst x = 0 \/ fst x = 11) (cct_insert k t d)).
  { intros k t d Hk. induction d as [|[k' t'] d IH]; intros F; cbn [cct_insert]; [constructor; [exact Hk|constructor]|]. apply Forall_cons_iff in F. destruct F as [F1 F2].
    destruct (k <? k'); [constructor; [exact Hk|constructor; assumption]|]. destruct (k' <? k); constructor; auto. }
  induction fs as [|[stem rs] fs IH]; intros d d' H F; [injection H as <-; exact F|].
  change (cct_all ((stem, rs) :: fs) (Some d)) with (cct_all fs (cct_load stem rs d)) in H.
  destruct (cct_load stem rs d) as [d1|] eqn:E; [|rewrite cct_all_none in H; discriminate]. apply (IH _ _ H). unfold cct_load in E.
  destruct (bytes_dec stem (str "C00")) as [->|N0]; [|destruct (bytes_dec stem (str "C11")) as [->|N1]; [|injection E as <-; exact F]];
    (destruct (all_records rs) as [l|]; [|discriminate]; injection E as <-; apply Ins; auto).
Qed.
Lemma cct_constants_get m : forall d cs, cct_constants m d = Ret cs -> Forall (fun x => fst x = 0 \/ fst x = 11) d ->
  (forall k, k = 0 \/ k = 11 -> match cct_get k d with
    | Some t => exists v, to_vec m (ct_rows t) = Ret v /\ assoc name_eqb (cct_variable_name k) cs = Some v
    | None => assoc name_eqb (cct_variable_name k) cs = None end) /\
  (forall k, assoc name_eqb (variable_name k) cs = None).
Proof.
  induction d as [|[k' t] d IH]; intros cs H F; cbn [cct_constants] in H.
  - injection H as <-. split; reflexivity.
  - destruct (to_vec m (ct_rows t)) as [v| |] eqn:V; try discriminate. cbn [bind] in H. destruct (cct_constants m d) as [cs'| |]; try discriminate. cbn [bind] in H.
    injection H as <-. apply Forall_cons_iff in F. destruct F as [Fk F]. destruct (IH cs' eq_refl F) as [G1 G2]. split.
    + intros k Hk. cbn [cct_get assoc]. destruct (Z.eq_dec k k') as [->|N].
      * rewrite (proj2 (name_eqb_spec _ _) eq_refl). eauto.
      * destruct (name_eqb (cct_variable_name k) (cct_variable_name k')) eqn:E; [|exact (G1 k Hk)]. exfalso. apply name_eqb_spec in E. cbn [fst] in Fk.
        destruct Hk as [->| ->], Fk as [->| ->]; try congruence; discriminate.
    + intros k. cbn [assoc]. destruct (name_eqb (variable_name k) (cct_variable_name k')) eqn:E; [|exact (G2 k)]. exfalso. apply name_eqb_spec in E.
      destruct k as [[s n] a]. unfold variable_name, cct_variable_name in E. cbn in E. discriminate.
Qed.

(** ** The build *)
Lemma assoc_app V (k : list byte) (l l' : list (list byte * V)) : assoc name_eqb k (l ++ l') = match assoc name_eqb k l with Some v => Some v | None => assoc name_eqb k l' end.
Proof. induction l as [|[k' v] l IH]; [reflexivity|]. cbn [app assoc]. destruct (name_eqb k k'); [reflexivity|exact IH]. Qed.

Lemma build_inv m ccts fs cs : build_tables m ccts fs = Some (Ret cs) -> exists dc d ca cb,
  cct_all ccts (Some []) = Some dc /\ load_all fs (Some []) = Some d /\ cct_constants m dc = Ret ca /\ constants m d = Ret cb /\ cs = ca ++ cb.
Proof.
  unfold build_tables. fold (cct_all ccts (Some [])). destruct (cct_all ccts (Some [])) as [dc|]; [|discriminate].
  fold (load_all fs (Some [])). destruct (load_all fs (Some [])) as [d|]; [|discriminate]. intros H. injection H as H.
  destruct (cct_constants m dc) as [ca| |] eqn:E1; try discriminate. cbn [bind] in H. destruct (constants m d) as [cb| |] eqn:E2; try discriminate. cbn [bind] in H. injection H as <-.
  exists dc, d, ca, cb. repeat split; reflexivity || assumption.
Qed.

(** The constant of a supported table has the name the generator gives it. *)
Lemma supported_name t s n a : wmo_table t = Some (s, n, a) -> supported t -> table_constant t = Some (variable_name (s, n, a)) /\ key_ok (s, n, a).
Proof.
  assert (B : forall x y, 0 <= x <= y -> y < 256 -> u8 x) by (unfold u8; lia).
  intros W S. destruct t as [| | | | | | | | |d|d c| | | |]; cbn [wmo_table] in W; try discriminate; injection W as <- <- <-;
    try (split; [reflexivity|unfold key_ok, u8; cbn; lia]).
  - cbn [supported] in S. cbn [table_constant]. destruct (in_dec Z.eq_dec d disciplines_4_1) as [_|N]; [|exfalso; apply N; exact S].
    split; [reflexivity|]. unfold key_ok, u8. cbn [arg_ok]. unfold u8. cbn [In] in S. lia.
  - cbn [supported] in S. cbn [table_constant]. destruct (in_dec pair_dec (d, c) categories_4_2) as [_|N].
    + split; [reflexivity|]. unfold key_ok, u8. cbn [arg_ok]. unfold u8. lia.
    + exfalso. apply N. unfold categories_4_2. rewrite !in_app_iff, !in_map_iff.
      assert (L : forall l, In c l -> forall x, d = x -> exists y, (x, y) = (d, c) /\ In y l) by (intros l I x ->; eauto).
      destruct S as [[-> S]|[[-> S]|[[-> S]|[[-> S]|[[-> S]|[[-> S]|[-> S]]]]]]];
        [left|right; left|do 2 right; left|do 3 right; left|do 4 right; left|do 5 right; left|do 6 right]; (apply L; [|reflexivity]); cbn [In]; lia.
Qed.
Lemma unsupported_name t : ~ supported t -> table_constant t = None.
Proof.
  intros N. destruct t as [| | | | | | | | |d|d c| | | |]; try (exfalso; apply N; exact I); cbn [table_constant].
  - destruct (in_dec Z.eq_dec d disciplines_4_1) as [S|_]; [destruct (N S)|reflexivity].
  - destruct (in_dec pair_dec (d, c) categories_4_2) as [S|_]; [|reflexivity]. exfalso. apply N. clear N. cbn [supported].
    unfold categories_4_2 in S. rewrite !in_app_iff, !in_map_iff in S.
    repeat (destruct S as [S|S]; [destruct S as (y & E & I); injection E as <- <-; cbn [In] in I; lia|]). destruct S as (y & E & I); injection E as <- <-; cbn [In] in I; lia.
Qed.

Lemma table_found m ccts fs cs : build_tables m ccts fs = Some (Ret cs) -> forall t s n a, wmo_table t = Some (s, n, a) -> supported t ->
  (forall tbl, provides fs s n a tbl -> exists v, to_vec m (ct_rows tbl) = Ret v /\ forall code, table_lookup cs t code = Some (lookup v code)) /\
  ((forall stem rs x, In (stem, rs) fs -> file_name stem s n -> In (Some x) rs -> ~ is_for a x) -> forall code, table_lookup cs t code = None).
Proof.
  intros H t s n a W S. destruct (build_inv _ _ _ _ H) as (dc & d & ca & cb & Hc & Hd & Ec & Ed & ->). destruct (supported_name _ _ _ _ W S) as [Nm K].
  pose proof (constants_get m d cb Ed (load_all_keys _ _ _ Hd (Forall_nil _)) _ K) as G.
  destruct (cct_constants_get m dc ca Ec (cct_keys _ _ _ Hc (Forall_nil _))) as [_ G2].
  unfold table_lookup. rewrite Nm. rewrite assoc_app, G2. split.
  - intros tbl P. rewrite (load_all_provides _ _ _ _ _ _ Hd P) in G. destruct G as (v & V & ->). exists v. auto.
  - intros N code. rewrite (load_all_same _ s n a _ _ Hd N) in G. cbn [db_get] in G. rewrite G. reflexivity.
Qed.

Lemma cct_found m ccts fs cs : build_tables m ccts fs = Some (Ret cs) -> forall t stem rows,
  (t, stem) = (CommonCodeTable00, text "C00") \/ (t, stem) = (CommonCodeTable11, text "C11") -> provides_cct ccts stem rows ->
  exists v, to_vec m rows = Ret v /\ forall code, table_lookup cs t code = Some (lookup v code).
Proof.
  intros H t stem rows Ht P. destruct (build_inv _ _ _ _ H) as (dc & d & ca & cb & Hc & Hd & Ec & Ed & ->).
  destruct (cct_constants_get m dc ca Ec (cct_keys _ _ _ Hc (Forall_nil _))) as [G _].
  assert (K : exists k, (k = 0 \/ k = 11) /\ stem = cct_stem k /\ table_constant t = Some (cct_variable_name k)).
  { destruct Ht as [Ht|Ht]; injection Ht as -> ->; [exists 0|exists 11]; split; auto; split; reflexivity. }
  destruct K as (k & Hk & -> & Nm). specialize (G k Hk). rewrite (cct_all_provides _ _ _ _ Hk Hc P) in G. cbn [ct_rows] in G. destruct G as (v & V & A).
  exists v. split; [exact V|]. intros code. unfold table_lookup. rewrite Nm, assoc_app, A. reflexivity.
Qed.

Lemma described_by m rows v code : to_vec m rows = Ret v -> rows_ok rows -> 0 <= code ->
  ((exists d, lookup v code = Ok d /\ (describes rows code d \/ d = [] /\ forall d', ~ describes rows code d')) \/ lookup v code = Err code) /\
  (forall e, consecutive 0 rows e -> forall d, describes rows code d -> lookup v code = Ok d).
Proof.
  intros V R C. split.
  - destruct (table_sound m rows R) as (t & E & H). rewrite V in E. injection E as <-. exact (H code C).
  - intros e Co d D. destruct (table_complete m rows e R Co) as (t & E & H). rewrite V in E. injection E as <-. exact (proj1 (H code C) d D).
Qed.

Lemma codes_described m ccts fs cs : build_tables m ccts fs = Some (Ret cs) -> forall t s n a, wmo_table t = Some (s, n, a) ->
  (supported t -> forall tbl, provides fs s n a tbl -> rows_ok (ct_rows tbl) -> forall code, 0 <= code ->
     exists r, table_lookup cs t code = Some r /\
       ((exists d, r = Ok d /\ (describes (ct_rows tbl) code d \/ d = [] /\ forall d', ~ describes (ct_rows tbl) code d')) \/ r = Err code) /\
       (forall e, consecutive 0 (ct_rows tbl) e -> forall d, describes (ct_rows tbl) code d -> r = Ok d)) /\
  (~ supported t -> forall code, 0 <= code -> table_lookup cs t code = Some (Err code)).
Proof.
  intros H t s n a W. split.
  - intros S tbl P R code C. destruct (proj1 (table_found _ _ _ _ H _ _ _ _ W S) tbl P) as (v & V & L). exists (lookup v code).
    split; [apply L|]. exact (described_by m _ v code V R C).
  - intros N code C. unfold table_lookup. rewrite (unsupported_name t N). unfold lookup. destruct (get [] code) as [x|] eqn:G; [|reflexivity].
    apply get_some_lt in G. unfold zlen in G. cbn in G. lia.
Qed.

Lemma common_described m ccts fs cs : build_tables m ccts fs = Some (Ret cs) -> forall t stem rows,
  (t, stem) = (CommonCodeTable00, text "C00") \/ (t, stem) = (CommonCodeTable11, text "C11") -> provides_cct ccts stem rows -> rows_ok rows ->
  forall code, 0 <= code ->
     exists r, table_lookup cs t code = Some r /\
       ((exists d, r = Ok d /\ (describes rows code d \/ d = [] /\ forall d', ~ describes rows code d')) \/ r = Err code) /\
       (forall e, consecutive 0 rows e -> forall d, describes rows code d -> r = Ok d).
Proof.
  intros H t stem rows Ht P R code C. destruct (cct_found _ _ _ _ H _ _ _ Ht P) as (v & V & L). exists (lookup v code).
  split; [apply L|]. exact (described_by m _ v code V R C).
Qed.

(** ** When the build fails *)
Definition file_ok (f : list byte * list (option csv_record)) : Prop :=
  codeflag_name (fst f) -> (exists s n, file_name (fst f) s n) /\ forall r, In r (snd f) -> exists r' a, r = Some r' /\ is_for a r'.
Definition cct_ok (f : list byte * list (option row)) : Prop :=
  In (fst f) [text "C00"; text "C11"] -> ~ In None (snd f).

Lemma file_name_codeflag stem s n : file_name stem s n -> codeflag_name stem.
Proof.
  intros (a & b & r & -> & A & B & E). exists a, b, r. split; [reflexivity|].
  split; [|split; [|exact E]]; [eapply (numeral_not_in _ _ _ x5f A)|eapply (numeral_not_in _ _ _ x5f B)]; try discriminate; change (bz x5f) with 95; lia.
Qed.
Lemma is_for_dec r : (exists a, is_for a r) \/ forall a, ~ is_for a r.
Proof.
  unfold is_for. destruct (parse_opt_arg (rec_subtitle r)) as [a|] eqn:P; [left; exists a; now apply subtitle_iff|].
  right. intros a H. apply subtitle_iff in H. congruence.
Qed.

Lemma load_iff stem rs d : (exists d', db_load stem rs d = Some d') <-> file_ok (stem, rs).
Proof.
  unfold file_ok. cbn [fst snd]. split.
  - intros (d' & H) C. destruct (db_load_cases stem rs d) as [(s & n & Nm)|[[_ E]|[N _]]]; [|congruence|contradiction]. split; [eauto|].
    rewrite (db_load_name _ _ _ _ _ Nm) in H. destruct (parse_records [] rs) as [ts|] eqn:P; [|discriminate].
    destruct (records_inv _ _ _ P) as (rs' & -> & F). intros r I. apply in_map_iff in I. destruct I as (x & <- & I). rewrite Forall_forall in F. destruct (F x I) as (a & Ha). eauto.
  - intros H. destruct (db_load_cases stem rs d) as [(s & n & Nm)|[[C E]|[_ E]]]; [| |eauto].
    + destruct (H (file_name_codeflag _ _ _ Nm)) as [_ All].
      assert (R : exists rs', rs = map Some rs' /\ Forall (fun r => exists a, is_for a r) rs').
      { clear - All. induction rs as [|r rs IH]; [exists []; split; [reflexivity|constructor]|].
        destruct (All r (or_introl eq_refl)) as (r' & a & -> & Ha). destruct IH as (rs' & -> & F); [intros x I; apply All; now right|].
        exists (r' :: rs'). split; [reflexivity|]. constructor; [eauto|exact F]. }
      destruct R as (rs' & -> & F). destruct (load_ok _ _ _ rs' d Nm F) as (d' & E & _). eauto.
    + exfalso. destruct (H C) as [(s & n & Nm) All]. rewrite (db_load_name _ _ _ _ _ Nm) in E.
      destruct (parse_records [] rs) as [ts|] eqn:P; [discriminate|].
      assert (R : exists rs', rs = map Some rs' /\ Forall (fun r => exists a, is_for a r) rs').
      { clear - All. induction rs as [|r rs IH]; [exists []; split; [reflexivity|constructor]|].
        destruct (All r (or_introl eq_refl)) as (r' & a & -> & Ha). destruct IH as (rs' & -> & F); [intros x I; apply All; now right|].
        exists (r' :: rs'). split; [reflexivity|]. constructor; [eauto|exact F]. }
      destruct R as (rs' & -> & F). destruct (records_ok rs' [] [] seen_nil F) as (ts & E' & _). congruence.
Qed.
Lemma load_all_iff fs : forall d, (exists d', load_all fs (Some d) = Some d') <-> Forall file_ok fs.
Proof.
  induction fs as [|[stem rs] fs IH]; intros d; [split; [constructor|intros _; exists d; reflexivity]|]. rewrite load_all_cons. cbn [fst snd]. rewrite Forall_cons_iff, <- (load_iff stem rs d).
  destruct (db_load stem rs d) as [d1|].
  - rewrite IH. split; [intros H; split; [eauto|exact H]|tauto].
  - rewrite load_all_none. split; [intros (? & ?); discriminate|intros [(? & ?) _]; discriminate].
Qed.
Lemma all_records_iff {A} (rs : list (option A)) : (exists l, all_records rs = Some l) <-> ~ In None rs.
Proof.
  induction rs as [|[x|] rs IH]; cbn [all_records In].
  - split; [intros _ []|intros _; eauto].
  - destruct (all_records rs) as [l|].
    + split; [intros _ [E|I]; [discriminate|apply (proj1 IH); eauto]|eauto].
    + split; [intros (? & ?); discriminate|intros N]. destruct (proj2 IH) as (? & ?); [tauto|discriminate].
  - split; [intros (? & ?); discriminate|intros N; exfalso; apply N; now left].
Qed.
Lemma cct_load_iff stem rs d : (exists d', cct_load stem rs d = Some d') <-> cct_ok (stem, rs).
Proof.
  unfold cct_ok. cbn [fst snd]. unfold cct_load. rewrite <- all_records_iff.
  destruct (bytes_dec stem (str "C00")) as [->|N0]; [|destruct (bytes_dec stem (str "C11")) as [->|N1]].
  - destruct (all_records rs) as [l|]; [split; eauto|]. split; [intros (? & ?); discriminate|intros H; destruct H as (? & ?); [now left|discriminate]].
  - destruct (all_records rs) as [l|]; [split; eauto|]. split; [intros (? & ?); discriminate|intros H; destruct H as (? & ?); [right; now left|discriminate]].
  - split; [intros _ [H|[H|[]]]; exfalso; [apply N0|apply N1]; now symmetry|eauto].
Qed.
Lemma cct_all_iff fs : forall d, (exists d', cct_all fs (Some d) = Some d') <-> Forall cct_ok fs.
Proof.
  induction fs as [|[stem rs] fs IH]; intros d; [split; [constructor|intros _; exists d; reflexivity]|].
  change (cct_all ((stem, rs) :: fs) (Some d)) with (cct_all fs (cct_load stem rs d)). rewrite Forall_cons_iff, <- (cct_load_iff stem rs d).
  destruct (cct_load stem rs d) as [d1|].
  - rewrite IH. split; [intros H; split; [eauto|exact H]|tauto].
  - rewrite cct_all_none. split; [intros (? & ?); discriminate|intros [(? & ?) _]; discriminate].
Qed.

Lemma build_iff m ccts fs : build_tables m ccts fs <> None <->
  (forall stem rs, In (stem, rs) ccts -> In stem [text "C00"; text "C11"] -> ~ In None rs) /\
  (forall stem rs, In (stem, rs) fs -> codeflag_name stem ->
     (exists s n, file_name stem s n) /\ forall r, In r rs -> exists r' a, r = Some r' /\ is_for a r').
Proof.
  assert (A : (forall stem rs, In (stem, rs) ccts -> In stem [text "C00"; text "C11"] -> ~ In None rs) <-> Forall cct_ok ccts).
  { rewrite Forall_forall. unfold cct_ok. split; [intros H [a b]; exact (H a b)|intros H a b I; exact (H (a, b) I)]. }
  assert (B : (forall stem rs, In (stem, rs) fs -> codeflag_name stem ->
     (exists s n, file_name stem s n) /\ forall r, In r rs -> exists r' a, r = Some r' /\ is_for a r') <-> Forall file_ok fs).
  { rewrite Forall_forall. unfold file_ok. split; [intros H [a b]; exact (H a b)|intros H a b I; exact (H (a, b) I)]. }
  rewrite A, B, <- (cct_all_iff ccts []), <- (load_all_iff fs []).
  assert (G : build_tables m ccts fs <> None <-> cct_all ccts (Some []) <> None /\ load_all fs (Some []) <> None).
  { unfold build_tables. change (fold_left _ ccts (Some [])) with (cct_all ccts (Some [])). change (fold_left _ fs (Some [])) with (load_all fs (Some [])).
    destruct (cct_all ccts (Some [])) as [dc|]; [|tauto]. destruct (load_all fs (Some [])) as [d|]; [|tauto]. split; [split|]; discriminate. }
  assert (NN : forall A (x : option A), x <> None <-> exists y, x = Some y).
  { intros X [x|]; (split; [intros H|intros (y & H)]); try congruence. eauto. }
  rewrite G, !NN. split; intros H; exact H.
Qed.

(** ** C58 *)
Lemma try_from_named codes : NoDup (map entry_id codes) -> forall value,
  (forall e, In e codes -> entry_id e = value -> exists v, variant_of (w_name e) v /\ enum_try_from codes value = Some v) /\
  ((forall e, In e codes -> entry_id e <> value) -> enum_try_from codes value = None).
Proof.
  intros N value. destruct (try_from_ok codes N value) as [A B]. split; [|exact B].
  intros e I E. exists (normalize_name (w_name e)). split; [now apply variant_iff|exact (A e I E)].
Qed.
Lemma enum_named codes : NoDup (map entry_id codes) ->
  NoDup (map fst (enum_variants codes)) /\ NoDup (map snd (enum_variants codes)) /\
  (forall v, In v (map fst (enum_variants codes)) <-> exists e, In e codes /\ variant_of (w_name e) v) /\
  (forall v d, In (v, d) (enum_variants codes) -> enum_try_from codes d = Some v /\
     exists pre e post, codes = pre ++ e :: post /\ entry_id e = d /\ variant_of (w_name e) v /\ forall e', In e' pre -> ~ variant_of (w_name e') v).
Proof.
  intros N. destruct (enum_ok codes N) as (A & B & C & D). split; [exact A|]. split; [exact B|]. split.
  - intros v. rewrite (C v). split; intros (e & I & E); exists e; (split; [exact I|]); [apply variant_iff|apply variant_iff in E]; exact E.
  - intros v d I. split; [exact (D v d I)|].
    assert (Iv : In v (map ToolsX.key codes)). { pose proof (in_map fst _ _ I) as I1. cbn [fst] in I1. apply C in I1. destruct I1 as (e & Ie & ->). apply (in_map ToolsX.key). exact Ie. }
    destruct (first_named codes v Iv) as (pre & e & post & E & K & Nk). exists pre, e, post. split; [exact E|].
    assert (Var : In (ToolsX.key e, entry_id e) (enum_variants codes)).
    { apply variants_in; [rewrite E; apply in_elt|]. unfold remapper_of. rewrite (remap_spec codes [] [] N) with (pre := pre) (post := post); [|reflexivity|exact E].
      split; [intros []|rewrite K; exact Nk]. }
    split; [|split].
    + rewrite K in Var. assert (X : (v, entry_id e) = (v, d)); [|congruence]. apply (NoDup_map_inj _ _ fst (enum_variants codes) A); auto.
    + apply variant_iff. symmetry. exact K.
    + intros e' I' V. apply Nk. apply variant_iff in V. rewrite V. apply (in_map ToolsX.key) in I'. exact I'.
Qed.

(** ** C67, C68: final forms *)
Lemma names_spec s n a : (forall x, In x [s; n] -> 0 <= x) ->
  match a with ArgNone => True | ArgL1 d => 0 <= d | ArgL2 d c => 0 <= d /\ 0 <= c end ->
  let numbers := [s; n] ++ match a with ArgNone => [] | ArgL1 d => [d] | ArgL2 d c => [d; c] end in
  exists ws, variable_name (s, n, a) = text "CODE_TABLE" ++ concat (map (cons x5f) ws) /\
    Forall2 (fun w x => digits w /\ decimal w = x /\ forall w', w = x30 :: w' -> x = 0 /\ w' = []) ws numbers.
Proof.
  intros H A numbers. exists (map show_uint numbers). unfold numbers. split.
  - unfold variable_name. change (str "CODE_TABLE_") with (text "CODE_TABLE" ++ [x5f]). rewrite <- !app_assoc. f_equal.
    destruct a as [|d|d c]; cbn [map app concat]; repeat (rewrite <- app_assoc; cbn [app]); rewrite ?app_nil_r; reflexivity.
  - assert (F : Forall (fun x => 0 <= x) ([s; n] ++ match a with ArgNone => [] | ArgL1 d => [d] | ArgL2 d c => [d; c] end)).
    { apply Forall_app. split; [rewrite Forall_forall; exact H|]. destruct a as [|d|d c]; repeat constructor; tauto. }
    revert F. generalize ([s; n] ++ match a with ArgNone => [] | ArgL1 d => [d] | ArgL2 d c => [d; c] end). intros l F.
    induction F as [|x l Hx F IH]; [constructor|]. cbn [map]. constructor; [|exact IH]. exact (show_uint_spec x Hx).
Qed.
Lemma names_distinct s n a s' n' a' :
  (forall x, In x [s; n; s'; n'] -> 0 <= x < 256) ->
  (forall b, In b [a; a'] -> match b with ArgNone => True | ArgL1 d => 0 <= d < 256 | ArgL2 d c => 0 <= d < 256 /\ 0 <= c < 256 end) ->
  variable_name (s, n, a) = variable_name (s', n', a') -> (s, n, a) = (s', n', a').
Proof.
  intros H A E. apply name_inj; [| |exact E]; unfold key_ok, u8; (split; [apply H; cbn; tauto|split; [apply H; cbn; tauto|]]).
  - exact (A a (or_introl eq_refl)).
  - exact (A a' (or_intror (or_introl eq_refl))).
Qed.
Lemma parameter_described m ccts fs cs : build_tables m ccts fs = Some (Ret cs) -> forall discipline category num,
  0 <= num -> supported (CodeTable4_2 discipline category) ->
  forall tbl, provides fs 4 2 (ArgL2 discipline category) tbl -> rows_ok (ct_rows tbl) ->
  forall e, consecutive 0 (ct_rows tbl) e ->
  (forall d, describes (ct_rows tbl) num d -> parameter_description cs discipline category num = Some (Some d)) /\
  ((forall d, ~ describes (ct_rows tbl) num d) -> described_after (ct_rows tbl) num -> parameter_description cs discipline category num = Some (Some [])) /\
  ((forall d, ~ describes (ct_rows tbl) num d) -> ~ described_after (ct_rows tbl) num -> parameter_description cs discipline category num = Some None).
Proof.
  intros H di ca num Hn S tbl P R e C. destruct (proj1 (table_found _ _ _ _ H (CodeTable4_2 di ca) 4 2 (ArgL2 di ca) eq_refl S) tbl P) as (v & V & L).
  unfold parameter_description. rewrite L. cbn [option_map]. destruct (table_complete m _ e R C) as (t & E & G). rewrite V in E. injection E as <-.
  destruct (G num Hn) as (G1 & G2 & G3). split; [|split].
  - intros d D. rewrite (G1 d D). reflexivity.
  - intros N A. rewrite (G2 N A). reflexivity.
  - intros N A. rewrite (G3 N A). reflexivity.
Qed.
Lemma lookup_texts d c : 0 <= c -> lookup_text (Ok d) = d /\
  exists w, lookup_text (Err c) = text "code '" ++ w ++ text "' is not implemented" /\ digits w /\ decimal w = c.
Proof. intros Hc. split; [reflexivity|]. exists (show_uint c). split; [reflexivity|]. destruct (show_uint_spec c Hc) as (A & B & _). auto. Qed.
