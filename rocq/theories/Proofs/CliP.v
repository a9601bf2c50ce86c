(** The texts of gribber's listings: fields, columns, lines. *)
From Coq Require Import Lia ZifyBool ZifyNat Strings.String.
From Verif Require Import Model.Base Model.Helpers Model.Errors Model.F64 Model.Sections Model.Reader Model.Parser Model.Context Model.Product Model.Grid Model.Tools Model.Text Model.Tables Model.Cli.
From Verif Require Import Spec.ToolsS Spec.ReaderS Spec.ParserS Spec.ContextS.
From Verif Require Import Proofs.BaseLemmas Proofs.ToolsP Proofs.TextP Proofs.ToolsX Proofs.ContextX Proofs.ViewX.
From Verif Require Import Spec.CliS.
Ltac Zify.zify_post_hook ::= Z.div_mod_to_equations.

(** ** Numbers *)

Lemma written_show n : 0 <= n -> written n (show_uint n).
Proof. intros H. destruct (show_uint_spec n H) as (A & B & C). split; [exact A|]. split; [exact B|]. intros t' E. apply (C t' E). Qed.

Lemma decimal_snoc a x : decimal (a ++ [x]) = 10 * decimal a + (bz x - 48).
Proof. unfold decimal. rewrite fold_left_app. reflexivity. Qed.
Lemma decimal_pos : forall a x, Forall (fun b => 48 <= bz b <= 57) (x :: a) -> x <> x30 -> 0 < decimal (x :: a).
Proof.
  intros a x F N. induction a as [|y a IH] using rev_ind.
  - inversion F as [|? ? Hx _]; subst. cbn [decimal fold_left]. assert (bz x <> 48) by (intro E; apply N; apply bz_inj; rewrite E; reflexivity). unfold decimal. cbn [fold_left]. lia.
  - rewrite app_comm_cons in *. apply Forall_app in F. destruct F as (F1 & F2). inversion F2 as [|? ? Hy _]; subst.
    rewrite decimal_snoc. specialize (IH F1). lia.
Qed.
Lemma written_unique_aux : forall t t', Forall (fun b => 48 <= bz b <= 57) t -> Forall (fun b => 48 <= bz b <= 57) t' ->
  t <> [] -> t' <> [] -> (forall r, t = x30 :: r -> r = []) -> (forall r, t' = x30 :: r -> r = []) -> decimal t = decimal t' -> t = t'.
Proof.
  assert (K : forall a x, (forall r, a ++ [x] = x30 :: r -> r = []) -> forall r, a = x30 :: r -> False).
  { intros a x N r E. subst a. cbn [app] in N. specialize (N _ eq_refl). destruct r; discriminate. }
  assert (P : forall a, Forall (fun b => 48 <= bz b <= 57) a -> (forall r, a = x30 :: r -> False) -> a <> [] -> 0 < decimal a).
  { intros [|x a] F N H; [congruence|]. apply decimal_pos; [exact F|]. intros ->. eapply N. reflexivity. }
  intros t. induction t as [|x a IH] using rev_ind; intros t' F F' N N' Z Z' E; [congruence|].
  destruct t' as [|y b _] using rev_ind; [congruence|]. rewrite !decimal_snoc in E. apply Forall_app in F, F'.
  destruct F as (F1 & F2), F' as (F1' & F2'). inversion F2 as [|? ? Hx _]; subst. inversion F2' as [|? ? Hy _]; subst.
  assert (Ea : decimal a = decimal b) by lia. assert (bz x = bz y) as Exy by lia. apply bz_inj in Exy. subst y. f_equal.
  destruct a as [|a0 a'].
  - destruct b as [|b0 b']; [reflexivity|]. exfalso. pose proof (P _ F1' (K _ _ Z') ltac:(discriminate)) as Q. rewrite <- Ea in Q. cbn in Q. lia.
  - destruct b as [|b0 b'].
    + exfalso. pose proof (P _ F1 (K _ _ Z) ltac:(discriminate)) as Q. rewrite Ea in Q. cbn in Q. lia.
    + apply IH; try assumption; try discriminate; intros r Er; exfalso; [exact (K _ _ Z r Er)|exact (K _ _ Z' r Er)].
Qed.
Lemma written_unique n t t' : written n t -> written n t' -> t = t'.
Proof. intros ((N & F) & E & Z) ((N' & F') & E' & Z'). apply written_unique_aux; auto; congruence. Qed.
Lemma written_nonneg n t : written n t -> 0 <= n.
Proof. intros (D & <- & _). apply decimal_nonneg. exact D. Qed.
Lemma written_iff n t : written n t <-> 0 <= n /\ t = show_uint n.
Proof.
  split; [|intros (H & ->); apply written_show; exact H]. intros H. pose proof (written_nonneg _ _ H) as N. split; [exact N|].
  eapply written_unique; [exact H|apply written_show; exact N].
Qed.
Lemma signed_iff n t : written_signed n t <-> t = show_int n.
Proof.
  unfold written_signed, show_int. split.
  - intros [(H & W)|(H & t' & W & ->)]; apply written_iff in W as (_ & ->).
    + replace (n <? 0) with false by lia. reflexivity.
    + replace (n <? 0) with true by lia. reflexivity.
  - intros ->. destruct (Z.ltb_spec n 0) as [H|H]; [right|left]; (split; [exact H|]).
    + eexists. split; [apply written_show; lia|reflexivity].
    + apply written_show. exact H.
Qed.

(** ** Columns *)

Lemma width_chars t : width t = chars t.
Proof. unfold width, chars. f_equal. apply filter_ext. intros b. f_equal. f_equal. lia. Qed.
Lemma right_iff w t c : right w t c <-> c = pad_left w t.
Proof.
  unfold right, pad_left. rewrite <- width_chars. split.
  - intros (n & -> & E). do 2 f_equal. lia.
  - intros ->. exists (Z.to_nat (w - width t)). split; [reflexivity|]. lia.
Qed.
Lemma left_iff w t c : left w t c <-> c = pad_right w t.
Proof.
  unfold left, pad_right. rewrite <- width_chars. split.
  - intros (n & -> & E). do 2 f_equal. lia.
  - intros ->. exists (Z.to_nat (w - width t)). split; [reflexivity|]. lia.
Qed.
Lemma labelled_iff w rows t : labelled w rows t <-> t = concat (map (fun row => pad_right w (fst row) ++ snd row ++ lf) rows).
Proof.
  unfold labelled. split.
  - intros (ls & F & ->). f_equal. induction F as [|row line rows ls (c & L & E) _ IH]; [reflexivity|]. cbn [map]. apply left_iff in L. subst. f_equal; exact IH.
  - intros ->. eexists. split; [|reflexivity]. induction rows as [|row rows IH]; cbn [map]; constructor; [|exact IH].
    exists (pad_right w (fst row)). split; [apply left_iff|]; reflexivity.
Qed.

(** ** Tables *)

Section Tables.
  Variable e : printer.
  Hypothesis Ce : compiles e.

  Lemma looked_iff t c s : 0 <= c -> (looked_up e t c s <-> s = table_text e t c).
  Proof.
    intros Hc. unfold looked_up, table_text. destruct (table_lookup (pr_tables e) t c) as [r|] eqn:E; [|elim (Ce t c E)].
    assert (N : forall c', r = Err c' -> c' = c).
    { intros c' ->. unfold table_lookup, lookup in E. destruct (table_constant t).
      - destruct (assoc name_eqb l (pr_tables e)) as [v|]; [|discriminate]. cbn [option_map] in E. destruct (get v c); injection E; congruence.
      - destruct (get [] c); injection E; congruence. }
    split.
    - intros (r' & Er & M). injection Er as <-. destruct r as [d|c']; cbn [lookup_text]; [exact M|]. destruct M as (w & W & ->). apply written_iff in W as (_ & ->). reflexivity.
    - intros ->. exists r. split; [reflexivity|]. destruct r as [d|c']; [reflexivity|]. cbn [lookup_text]. exists (show_uint c'). split; [|reflexivity].
      apply written_show. rewrite (N c' eq_refl). exact Hc.
  Qed.

  Lemma get_octet_nonneg p i c : get_octet p i = Some c -> 0 <= c < 256.
  Proof. unfold get_octet. destruct (get p i) as [b|]; [|discriminate]. intros E. injection E as <-. apply bz_range. Qed.
  Lemma category_nonneg p c : parameter_category p = Ret (Some c) -> 0 <= c < 256.
  Proof.
    unfold parameter_category, if_supported. destruct (template_supported p) as [[|]| |]; cbn [bind]; intros E; try discriminate.
    injection E as E. eapply get_octet_nonneg. exact E.
  Qed.
  Lemma number_nonneg p c : parameter_number p = Ret (Some c) -> 0 <= c < 256.
  Proof.
    unfold parameter_number, if_supported. destruct (template_supported p) as [[|]| |]; cbn [bind]; intros E; try discriminate.
    injection E as E. eapply get_octet_nonneg. exact E.
  Qed.
  Lemma process_nonneg p c : generating_process p = Ret (Some c) -> 0 <= c < 256.
  Proof.
    unfold generating_process, if_supported. destruct (template_supported p) as [[|]| |]; cbn [bind]; intros E; try discriminate.
    destruct (prod_tmpl_num p) as [t| |]; cbn [bind] in E; try discriminate. destruct (range_match t generating_index); [|discriminate].
    injection E as E. eapply get_octet_nonneg. exact E.
  Qed.

  Lemma parameter_iff v p t : (exists d, v_indicator v = Ret d) -> (shows_parameter e v p t <-> parameter_text e v p = Ret t).
  Proof.
    intros (d & Ed). unfold shows_parameter, parameter_text. split.
    - intros (oc & on & -> & -> & H). cbn [bind]. destruct oc as [c|]; [|subst; reflexivity]. destruct on as [n|] eqn:En; [|subst; reflexivity].
      destruct H as (d' & Ed' & L). rewrite Ed in *. injection Ed' as <-. cbn [bind]. f_equal. symmetry. destruct L as (r & L).
      destruct (Z.le_gt_cases 0 n) as [Hn|Hn]; [apply looked_iff; [exact Hn|exists r; exact L]|].
      destruct L as (L1 & L2). unfold table_text. rewrite L1. destruct r as [x|x]; cbn [lookup_text]; [exact L2|]. destruct L2 as (w & W & ->). apply written_iff in W as (_ & ->). reflexivity.
    - intros H. destruct (parameter_category p) as [oc| |] eqn:E1; cbn [bind] in H; try discriminate.
      destruct (parameter_number p) as [on| |] eqn:E2; cbn [bind] in H; try discriminate. exists oc, on. split; [reflexivity|]. split; [reflexivity|].
      destruct oc as [c|]; [|injection H as <-; reflexivity]. destruct on as [n|]; [|injection H as <-; reflexivity].
      rewrite Ed in H. cbn [bind] in H. injection H as <-. exists d. split; [exact Ed|]. apply looked_iff; [|reflexivity]. apply (number_nonneg _ _ E2).
  Qed.
  Lemma process_iff p t : shows_process e p t <-> process_text e p = Ret t.
  Proof.
    unfold shows_process, process_text. split.
    - intros (o & E & H). rewrite E. cbn [bind]. f_equal. destruct o as [c|]; cbn [opt_text] in H; [|congruence]. symmetry. apply looked_iff; [|exact H]. apply (process_nonneg _ _ E).
    - intros H. destruct (generating_process p) as [o| |] eqn:E; cbn [bind] in H; try discriminate. exists o. split; [reflexivity|]. injection H as <-.
      destruct o as [c|]; cbn [opt_text]; [|reflexivity]. apply looked_iff; [|reflexivity]. apply (process_nonneg _ _ E).
  Qed.
  Lemma category_iff v p t : (exists d, v_indicator v = Ret d) -> (shows_category e v p t <->
    (let! c := parameter_category p in
     match c with Some c => let! d := v_indicator v in Ret (table_text e (CodeTable4_1 d) c) | None => Ret [] end) = Ret t).
  Proof.
    intros (d & Ed). unfold shows_category. split.
    - intros (o & E & H). rewrite E. cbn [bind]. destruct o as [c|]; cbn [opt_text] in H; [|congruence].
      destruct H as (d' & Ed' & L). rewrite Ed in *. injection Ed' as <-. cbn [bind]. f_equal. symmetry. apply looked_iff; [|exact L]. apply (category_nonneg _ _ E).
    - intros H. destruct (parameter_category p) as [o| |] eqn:E; cbn [bind] in H; try discriminate. exists o. split; [reflexivity|].
      destruct o as [c|]; cbn [opt_text]; [|injection H as <-; reflexivity]. rewrite Ed in H. cbn [bind] in H. injection H as <-.
      exists d. split; [exact Ed|]. apply looked_iff; [|reflexivity]. apply (category_nonneg _ _ E).
  Qed.

  (** ** Forecast times *)

  Lemma unit_some n x : unit_of_code n = Some x -> n = 255 \/ In n (map fst time_units).
  Proof.
    intros H. cbn [time_units map fst In]. unfold unit_of_code in H. destruct n as [|p|p]; [lia| |discriminate].
    do 8 (destruct p as [p|p|]; try discriminate H; try lia).
  Qed.
  Lemma unit_none n : n <> 255 -> ~ In n (map fst time_units) -> unit_of_code n = None.
  Proof. intros N M. destruct (unit_of_code n) as [x|] eqn:E; [|reflexivity]. destruct (unit_some n x E); tauto. Qed.
  Lemma forecast_numbers p f : forecast_time p = Ret (Some f) -> exists u v, f = from_numbers u v /\ 0 <= u /\ 0 <= v.
  Proof.
    unfold forecast_time, if_supported. destruct (template_supported p) as [[|]| |]; cbn [bind]; intros E; try discriminate.
    destruct (prod_tmpl_num p) as [t| |]; cbn [bind] in E; try discriminate. destruct (range_match t forecast_index); [|discriminate].
    cbv zeta in E. match type of E with context [read_u32 ?a ?b] => destruct (read_u32 a b) as [w| |] eqn:Ew end; cbn [bind] in E; try discriminate.
    match type of E with context [get_octet ?a ?b] => destruct (get_octet a b) as [c|] eqn:Ec end; [|discriminate]. injection E as <-.
    exists c, w. split; [reflexivity|]. split; [apply (get_octet_nonneg _ _ _ Ec)|].
    unfold read_u32, read_be in Ew. destruct (slice p _ _) as [l| |]; cbn [bind] in Ew; try discriminate. injection Ew as <-. apply be_range.
  Qed.
  Ltac in_units H := cbn [time_units In] in H; repeat (destruct H as [H|H]; [injection H as <- <- <-|]); try (destruct H; fail).
  Lemma time_sound f t : shows_time f t -> t = forecast_text f.
  Proof.
    intros (u & v & w & -> & W & H). apply written_iff in W as (Hv & ->). unfold forecast_text, from_numbers. cbn [fc_value fc_unit].
    destruct H as [(s & name & I & ->)|[(-> & ->)|(N & M & c & C & ->)]].
    - in_units I; reflexivity.
    - cbn. rewrite app_nil_r. reflexivity.
    - unfold code_of. rewrite (unit_none u N M). apply written_iff in C as (_ & ->). reflexivity.
  Qed.
  Lemma time_complete u v : 0 <= u -> 0 <= v -> shows_time (from_numbers u v) (forecast_text (from_numbers u v)).
  Proof.
    intros Hu Hv. exists u, v, (show_uint v). split; [reflexivity|]. split; [apply written_show; exact Hv|].
    destruct (Z.eq_dec u 255) as [->|N]; [right; left; split; [reflexivity|cbn; apply app_nil_r]|].
    destruct (in_dec Z.eq_dec u (map fst time_units)) as [I|I].
    - left. apply in_map_iff in I. destruct I as ([u' [s name]] & Eu & I). cbn [fst] in Eu. subst u'. exists s, name. split; [exact I|]. in_units I; reflexivity.
    - right; right. split; [exact N|]. split; [exact I|]. exists (show_uint u). split; [apply written_show; exact Hu|].
      unfold forecast_text, from_numbers. cbn [fc_unit fc_value]. unfold code_of. rewrite (unit_none u N I). reflexivity.
  Qed.
  Lemma time_unit_sound f t : shows_time_unit f t -> t = fst (forecast_describe f).
  Proof.
    intros (u & v & -> & H). unfold forecast_describe, from_numbers. cbn [fc_value fc_unit fst].
    destruct H as [(s & I)|[(-> & ->)|(N & M & c & C & ->)]].
    - in_units I; reflexivity.
    - reflexivity.
    - unfold code_of. rewrite (unit_none u N M). apply written_iff in C as (_ & ->). reflexivity.
  Qed.
  Lemma time_unit_complete u v : 0 <= u -> shows_time_unit (from_numbers u v) (fst (forecast_describe (from_numbers u v))).
  Proof.
    intros Hu. exists u, v. split; [reflexivity|].
    destruct (Z.eq_dec u 255) as [->|N]; [right; left; split; reflexivity|].
    destruct (in_dec Z.eq_dec u (map fst time_units)) as [I|I].
    - left. apply in_map_iff in I. destruct I as ([u' [s name]] & Eu & I). cbn [fst] in Eu. subst u'. exists s.
      assert (name = fst (forecast_describe (from_numbers u v))) as <-; [|exact I]. in_units I; reflexivity.
    - right; right. split; [exact N|]. split; [exact I|]. exists (show_uint u). split; [apply written_show; exact Hu|].
      unfold forecast_describe, from_numbers. cbn [fc_unit fc_value fst]. unfold code_of. rewrite (unit_none u N I). reflexivity.
  Qed.
  Lemma forecast_iff p t : shows_forecast p t <->
    (let! ft := forecast_time p in Ret (match ft with Some f => forecast_text f | None => [] end)) = Ret t.
  Proof.
    unfold shows_forecast. split.
    - intros (o & -> & H). cbn [bind]. f_equal. destruct o as [f|]; cbn [opt_text] in H; [|congruence]. symmetry. apply time_sound. exact H.
    - intros H. destruct (forecast_time p) as [o| |] eqn:E; cbn [bind] in H; try discriminate. exists o. split; [reflexivity|]. injection H as <-.
      destruct o as [f|]; cbn [opt_text]; [|reflexivity]. destruct (forecast_numbers p f E) as (u & v & -> & Hu & Hv). apply time_complete; assumption.
  Qed.
  Lemma forecast_unit_iff p value unit :
    (exists o, forecast_time p = Ret o /\ opt_text (fun f => written (fc_value f)) o value /\ opt_text shows_time_unit o unit) <->
    (let! ft := forecast_time p in Ret (match ft with Some f => forecast_describe f | None => ([], []) end)) = Ret (unit, value).
  Proof.
    split.
    - intros (o & -> & A & B). cbn [bind]. f_equal. destruct o as [f|]; cbn [opt_text] in A, B; [|congruence].
      apply time_unit_sound in B. apply written_iff in A as (_ & ->). subst unit. reflexivity.
    - intros H. destruct (forecast_time p) as [o| |] eqn:E; cbn [bind] in H; try discriminate. exists o. split; [reflexivity|]. injection H as H.
      destruct o as [f|]; cbn [opt_text]; [|injection H as <- <-; split; reflexivity]. destruct (forecast_numbers p f E) as (u & v & -> & Hu & Hv).
      assert (unit = fst (forecast_describe (from_numbers u v))) as -> by (rewrite H; reflexivity).
      assert (value = snd (forecast_describe (from_numbers u v))) as -> by (rewrite H; reflexivity).
      split; [apply written_show; exact Hv|apply time_unit_complete; exact Hu].
  Qed.

  (** ** Surfaces *)

  Lemma assoc_some_in V k (v : V) l : assoc Z.eqb k l = Some v -> In (k, v) l.
  Proof.
    induction l as [|[k' v'] l IH]; cbn [assoc]; [discriminate|]. destruct (Z.eqb_spec k k') as [->|N]; intros E; [injection E as ->; left; reflexivity|].
    right. auto.
  Qed.

  Lemma surface_iff s t : shows_surface e s t <-> t = format_surface e s.
  Proof.
    unfold shows_surface, format_surface, surface_unit. split.
    - intros [(u & codes & I & J & ->)|(N & ->)].
      + cbn [units_4_5 In] in I. repeat (destruct I as [I|I]; [injection I as <- <-; cbn [In] in J; repeat (destruct J as [J|J]; [rewrite <- J; reflexivity|]); destruct J|]). destruct I.
      + replace (assoc Z.eqb (surface_type s) surface_units) with (@None (list byte)); [rewrite app_nil_r; reflexivity|].
        symmetry. apply assoc_none_in. intros I. cbn [surface_units map fst In] in I.
        assert (K : Forall (fun x => ~ In (surface_type s) (snd x)) units_4_5) by (apply Forall_forall; intros [u codes] H; apply (N u codes H)).
        unfold units_4_5 in K. repeat (let H := fresh in apply Forall_cons_iff in K; destruct K as (H & K); cbn [snd In] in H). lia.
    - intros ->. destruct (assoc Z.eqb (surface_type s) surface_units) as [u|] eqn:E.
      + left. assert (I : In (surface_type s, u) surface_units) by (apply assoc_some_in in E; exact E).
        assert (K : forall c u', In (c, u') surface_units -> exists codes, In (u', codes) units_4_5 /\ In c codes).
        { intros c u' J. clear - J. cbn [surface_units In] in J.
          repeat (destruct J as [J|J]; [injection J as <- <-; cbn [units_4_5 In]; eexists; split; [repeat (first [left; reflexivity|right])|cbn [In]; lia]|]). destruct J. }
        destruct (K _ _ I) as (codes & A & B). exists u, codes. auto.
      + right. split; [|apply app_nil_r]. intros u codes I J. apply assoc_none_in in E. apply E. cbn [surface_units map fst In].
        cbn [units_4_5 In] in I. repeat (destruct I as [I|I]; [injection I as <- <-; cbn [In] in J; lia|]). destruct I.
  Qed.
  Lemma surfaces_iff m p t1 t2 : shows_surfaces e m p t1 t2 <->
    (let! fs := fixed_surfaces m p in Ret (match fs with Some (a, b) => (format_surface e a, format_surface e b) | None => ([], []) end)) = Ret (t1, t2).
  Proof.
    unfold shows_surfaces. split.
    - intros (o & -> & H). cbn [bind]. f_equal. destruct o as [[a b]|]; destruct H as (A & B); [|congruence]. apply surface_iff in A, B. congruence.
    - intros H. destruct (fixed_surfaces m p) as [o| |] eqn:E; cbn [bind] in H; try discriminate. exists o. split; [reflexivity|]. injection H as H.
      destruct o as [[a b]|]; injection H as <- <-; [|split; reflexivity]. split; apply surface_iff; reflexivity.
  Qed.
End Tables.
