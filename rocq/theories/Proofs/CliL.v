(** Lines of gribber's listings. *)
From Coq Require Import Lia ZifyBool ZifyNat Strings.String Sorting.Sorted Sorting.Permutation.
From Verif Require Import Model.Base Model.Helpers Model.Errors Model.F64 Model.Sections Model.Reader Model.Parser Model.Context Model.Product Model.Grid Model.Tools Model.Text Model.Tables Model.Cli.
From Verif Require Import Spec.ToolsS Spec.ReaderS Spec.ParserS Spec.ContextS.
From Verif Require Import Proofs.BaseLemmas Proofs.ReaderP Proofs.FileP Proofs.ToolsP Proofs.TextP Proofs.ToolsX Proofs.ContextX Proofs.ViewX Proofs.BoundX Proofs.CliP Proofs.CliX.
From Verif Require Import Spec.CliS.
Ltac Zify.zify_post_hook ::= Z.div_mod_to_equations.

(** ** Line feeds *)

Definition nolf (t : list byte) : Prop := ~ In x0a t.
Lemma lf_app a b : line_feeds (a ++ b) = line_feeds a + line_feeds b.
Proof. unfold line_feeds. rewrite count_occ_app. lia. Qed.
Lemma lf_none t : nolf t -> line_feeds t = 0.
Proof. intros H. unfold line_feeds. apply count_occ_not_In with (eq_dec := Byte.byte_eq_dec) in H. rewrite H. reflexivity. Qed.
Lemma lf_lf : line_feeds [x0a] = 1. Proof. reflexivity. Qed.
Lemma nl_app a b : nolf a -> nolf b -> nolf (a ++ b).
Proof. intros A B H. apply in_app_or in H. destruct H; [apply A|apply B]; assumption. Qed.
Lemma nl_nil : nolf []. Proof. intros []. Qed.
Lemma nl_space n : nolf (repeat x20 n).
Proof. intros H. apply repeat_spec in H. discriminate. Qed.
Lemma nl_left w t : nolf t -> nolf (pad_left w t). Proof. intros H. apply nl_app; [apply nl_space|exact H]. Qed.
Lemma nl_right w t : nolf t -> nolf (pad_right w t). Proof. intros H. apply nl_app; [exact H|apply nl_space]. Qed.
Definition str_nolf (t : list byte) : bool := forallb (fun b => negb (Byte.eqb b x0a)) t.
Lemma nl_str t : str_nolf t = true -> nolf t.
Proof. unfold str_nolf. intros H I. rewrite forallb_forall in H. specialize (H _ I). discriminate. Qed.
Lemma nl_dec : forall fuel n acc, nolf acc -> nolf (dec_loop fuel n acc).
Proof.
  induction fuel as [|fuel IH]; intros n acc H; cbn [dec_loop]; [exact H|]. cbv zeta.
  assert (K : nolf (zb (48 + n mod 10) :: acc)).
  { intros [E|I]; [|exact (H I)]. apply (f_equal bz) in E. rewrite bz_digit in E by lia. change (bz x0a) with 10 in E. lia. }
  destruct (n <? 10); [exact K|apply IH; exact K].
Qed.
Lemma nl_uint n : nolf (show_uint n). Proof. unfold show_uint. apply nl_dec, nl_nil. Qed.
Lemma nl_int n : nolf (show_int n).
Proof. unfold show_int. destruct (n <? 0); [|apply nl_uint]. intros [E|I]; [discriminate|exact (nl_uint _ I)]. Qed.
Lemma nl_hex : forall k n acc, nolf acc -> nolf (hex_loop k n acc).
Proof.
  induction k as [|k IH]; intros n acc H; cbn [hex_loop]; [exact H|]. apply IH. intros [E|I]; [|exact (H I)].
  apply (f_equal bz) in E. unfold hex_digit in E. rewrite bz_zb in E. change (bz x0a) with 10 in E. destruct (_ <? _) eqn:D; lia.
Qed.
Lemma nl_hex16 n : nolf (show_hex16 n). Proof. apply nl_hex, nl_nil. Qed.
Lemma nl_table e t c : single_lines e -> nolf (table_text e t c).
Proof.
  intros (S & _). unfold table_text. destruct (table_lookup (pr_tables e) t c) as [r|] eqn:E; [|apply nl_nil].
  assert (K : exists l, r = lookup l c /\ forall d, In d l -> nolf d).
  { unfold table_lookup in E. destruct (table_constant t) as [name|]; [|injection E as <-; exists []; split; [reflexivity|intros d []]].
    destruct (assoc name_eqb name (pr_tables e)) as [l|] eqn:A; cbn [option_map] in E; [|discriminate]. injection E as <-.
    exists l. split; [reflexivity|]. intros d I.
    assert (Q : exists name', In (name', l) (pr_tables e)).
    { clear - A. induction (pr_tables e) as [|[k v] r IH]; cbn [assoc] in A; [discriminate|]. destruct (name_eqb name k).
      - injection A as ->. exists k. left. reflexivity.
      - destruct (IH A) as (x & I). exists x. right. exact I. }
    destruct Q as (name' & Q). exact (S name' l d Q I). }
  destruct K as (l & -> & K). unfold lookup. destruct (get l c) as [d|] eqn:G; cbn [lookup_text].
  - apply K. unfold get in G. destruct (0 <=? c); [|discriminate]. apply nth_error_In in G. exact G.
  - apply nl_app; [apply nl_str; reflexivity|]. apply nl_app; [apply nl_uint|apply nl_str; reflexivity].
Qed.
Lemma ret_inj A (a b : A) : Ret a = Ret b -> a = b. Proof. congruence. Qed.
Ltac ret H := apply ret_inj in H; rewrite <- ?H in *; clear H.
Ltac nl := repeat first [apply nl_app | apply nl_left | apply nl_right | apply nl_space | apply nl_uint | apply nl_int | apply nl_hex16 | apply nl_nil | (apply nl_table; assumption) | (apply nl_str; reflexivity) | assumption].
Ltac unbind H := repeat (apply bind_ret_inv in H; let a := fresh "a" in let E := fresh "E" in destruct H as (a & E & H)).

(** ** gribber list *)

Lemma nl_parameter e v p t : single_lines e -> parameter_text e v p = Ret t -> nolf t.
Proof.
  intros S H. unfold parameter_text in H. unbind H. destruct a as [c|]; [destruct a0 as [n|]|]; [|ret H; nl|ret H; nl].
  unbind H. ret H. nl.
Qed.
Lemma nl_process e p t : single_lines e -> process_text e p = Ret t -> nolf t.
Proof. intros S H. unfold process_text in H. unbind H. ret H. destruct a; nl. Qed.
Lemma nl_short u s : short_expr u = Some s -> nolf s.
Proof. intros H. destruct u; cbn [short_expr] in H; try discriminate; injection H as <-; nl. Qed.
Lemma nl_forecast f : nolf (forecast_text f).
Proof.
  unfold forecast_text. apply nl_app; [nl|]. destruct (fc_unit f) as [u|n]; [|nl]. destruct (short_expr u) as [s|] eqn:E; [|nl].
  pose proof (nl_short u s E). nl.
Qed.
Lemma nl_unit s u : surface_unit s = Some u -> nolf u.
Proof.
  unfold surface_unit. intros H. apply assoc_some_in in H. apply nl_str.
  assert (K : forallb (fun x => str_nolf (snd x)) surface_units = true) by reflexivity. rewrite forallb_forall in K. exact (K _ H).
Qed.
Lemma nl_surface e s : single_lines e -> nolf (format_surface e s).
Proof.
  intros (_ & S). unfold format_surface. apply nl_app; [apply S|]. destruct (surface_unit s) as [u|] eqn:E; [|nl]. pose proof (nl_unit s u E). nl.
Qed.
Lemma nl_grid g : nolf (short_name g). Proof. destruct g; nl. Qed.

Lemma nl_id v : nolf (id_text v). Proof. unfold id_text. nl. Qed.

Lemma row_line e m v t : single_lines e -> list_row e m v = Ret t -> line_feeds t = 1.
Proof.
  intros S H. unfold list_row in H. unbind H.
  assert (Hp := nl_parameter _ _ _ _ S E0). assert (Hq := nl_process _ _ _ S E1).
  assert (Hf : nolf (match a2 with Some f => forecast_text f | None => [] end)) by (destruct a2; [apply nl_forecast|nl]). 
  destruct (match a3 with Some (a, b) => (format_surface e a, format_surface e b) | None => ([], []) end) as [s1 s2] eqn:Es.
  assert (H12 : nolf s1 /\ nolf s2).
  { destruct a3 as [[x y]|]; injection Es as <- <-; split; [apply nl_surface; exact S|apply nl_surface; exact S|nl|nl]. }
  destruct H12 as (Hs1 & Hs2). unbind H.
  assert (Hg : nolf a6).
  { destruct a5 as [g|x]; [ret E6; apply nl_grid|]. unbind E6. ret E6. nl. }
  destruct a7 as [nan total]. ret H.
  match goal with |- line_feeds ?x = _ => assert (K : exists u, x = u ++ lf /\ nolf u) end.
  { pose proof (nl_id v). rewrite ?app_assoc. eexists. split; [reflexivity|]. nl. }
  destruct K as (u & -> & K). rewrite lf_app, (lf_none u K). reflexivity.
Qed.

Definition field_line label value : nolf label -> nolf value -> line_feeds (Cli.field label value) = 1.
Proof. intros A B. unfold Cli.field. rewrite !lf_app, (lf_none _ A), (lf_none _ B). reflexivity. Qed.
Lemma nl_section e s t : single_lines e -> section_describe e s = Ret t -> nolf t.
Proof.
  intros S H. unfold section_describe in H. unbind H. ret H. destruct a as [c|]; [|nl]. unfold template_describe.
  destruct (fst c) as [|q|q]; try nl. do 3 (destruct q as [q|q|]; try nl).
Qed.
Lemma nl_details e s : single_lines e -> nolf (fst (fst (surface_describe e s))) /\ nolf (snd (fst (surface_describe e s))) /\ nolf (snd (surface_describe e s)).
Proof. intros S. unfold surface_describe. cbn [fst snd]. split; [nl|]. split; destruct (_ : bool); nl. Qed.
Lemma nl_time_unit f : nolf (fst (forecast_describe f)) /\ nolf (snd (forecast_describe f)).
Proof. unfold forecast_describe. cbn [fst snd]. split; [|nl]. destruct (fc_unit f) as [u|n]; [destruct u; nl|nl]. Qed.

Lemma describe_lines e m v t : single_lines e -> describe e m v = Ret t -> line_feeds t = 16.
Proof.
  intros S H. unfold describe in H. unbind H.
  destruct (match a1 with Some f => forecast_describe f | None => ([], []) end) as [fu fv] eqn:Ef.
  assert (Hf : nolf fu /\ nolf fv).
  { destruct a1 as [f|]; [|injection Ef as <- <-; split; nl]. pose proof (nl_time_unit f) as K. rewrite Ef in K. exact K. }
  destruct Hf as (Hfu & Hfv). unbind H.
  destruct (match a2 with Some (a, b) => (surface_describe e a, surface_describe e b) | None => (([], [], []), ([], [], [])) end) as [s1 s2] eqn:Es.
  assert (Hs : (nolf (fst (fst s1)) /\ nolf (snd (fst s1)) /\ nolf (snd s1)) /\ (nolf (fst (fst s2)) /\ nolf (snd (fst s2)) /\ nolf (snd s2))).
  { destruct a2 as [[x y]|].
    - assert (E1' : s1 = surface_describe e x) by congruence. assert (E2' : s2 = surface_describe e y) by congruence. rewrite E1', E2'.
      split; apply nl_details; exact S.
    - injection Es as <- <-. repeat split; nl. }
  destruct Hs as ((? & ? & ?) & (? & ? & ?)). unbind H.
  assert (nolf a3) by (eapply nl_section; eassumption). assert (nolf a6) by (eapply nl_section; eassumption). assert (nolf a10) by (eapply nl_section; eassumption).
  assert (nolf a8) by (eapply nl_parameter; eassumption). assert (nolf a9) by (eapply nl_process; eassumption).
  assert (nolf a7). { destruct a0 as [c|]; [unbind E7|]; ret E7; nl. }
  apply ret_inj in H. rewrite <- H. rewrite !lf_app. rewrite !field_line by nl. reflexivity.
Qed.
Lemma dump_lines e m v t : single_lines e -> dump_entry e m v = Ret t -> line_feeds t = 18.
Proof.
  intros S H. unfold dump_entry in H. unbind H. apply ret_inj in H. rewrite <- H. rewrite !lf_app, (describe_lines e m v a S E), (lf_none _ (nl_id v)). reflexivity.
Qed.

Lemma lf_concat k ls : Forall (fun t => line_feeds t = k) ls -> line_feeds (concat ls) = k * zlen ls.
Proof. induction 1 as [|t ls E _ IH]; [cbn; lia|]. cbn [concat]. rewrite lf_app, zlen_cons. lia. Qed.
Lemma lf_mapM A (f : A -> outcome (list byte)) k l r : (forall a t, f a = Ret t -> line_feeds t = k) -> mapM f l = Ret r -> line_feeds (concat r) = k * zlen l.
Proof.
  intros H E. apply mapM_ret in E. rewrite lf_concat with (k := k).
  - f_equal. unfold zlen. f_equal. symmetry. eapply F2_length. exact E.
  - induction E as [|a t l r Et _ IH]; constructor; [eapply H; exact Et|exact IH].
Qed.
Lemma lf_bold color t : nolf t -> line_feeds (bold color t) = 0.
Proof. intros H. apply lf_none. unfold bold. destruct color; [|exact H]. nl; apply nl_str; reflexivity. Qed.
Lemma lf_yellow color t : nolf t -> line_feeds (bold_yellow color t) = 0.
Proof. intros H. apply lf_none. unfold bold_yellow. destruct color; [|exact H]. nl; apply nl_str; reflexivity. Qed.

(** C70 *)
Lemma list_lines : forall m fuel s g, grib2_read m fuel s = Ret (Ok g) -> zlen (data s) < 2 ^ 63 -> 0 <= pos s <= zlen (data s) ->
  forall e m' color t, single_lines e -> list_text e m' color false g = Ret t ->
  line_feeds t = 1 + g_len g /\ list_num_lines m' false g = Ret (1 + g_len g).
Proof.
  intros m fuel s g E Hl Hp e m' color t S H. destruct (file_good m fuel s g E Hl Hp) as (ms & us & vs & _ & _ & _ & _ & L & M & _).
  pose proof (len_bound m fuel s g E Hl Hp) as B. pose proof (zlen_nonneg _ (g_subs g)) as B0. fold (g_len g) in B0.
  unfold list_text in H. rewrite (all_of_map _ g vs _ M), bold_eq, heading_eq in H. unbind H. apply ret_inj in H. split.
  - rewrite <- H, !lf_app, lf_bold by (apply nl_str; vm_compute; reflexivity).
    rewrite (lf_mapM _ _ 1 _ _ (fun v t => row_line e m' v t S) E0), L. unfold lf. rewrite lf_lf. lia.
  - unfold list_num_lines. rewrite size_all by lia. replace (0 <=? g_len g) with true by lia. cbn [bind].
    rewrite arith_U64_ok by lia. f_equal. lia.
Qed.
Lemma dump_text_lines : forall m fuel s g, grib2_read m fuel s = Ret (Ok g) -> zlen (data s) < 2 ^ 63 -> 0 <= pos s <= zlen (data s) ->
  forall e m' color t, single_lines e -> list_text e m' color true g = Ret t ->
  line_feeds t = 18 * g_len g /\
  list_num_lines m' true g = if 0 <? g_len g then Ret (10 * g_len g - 1) else match m' with Checked => Panic | Wrapping => Ret (2 ^ 64 - 1) end.
Proof.
  intros m fuel s g E Hl Hp e m' color t S H. destruct (file_good m fuel s g E Hl Hp) as (ms & us & vs & _ & _ & _ & _ & L & M & _).
  pose proof (len_bound m fuel s g E Hl Hp) as B. pose proof (zlen_nonneg _ (g_subs g)) as B0. fold (g_len g) in B0.
  unfold list_text in H. rewrite (all_of_map _ g vs _ M) in H. unbind H. apply ret_inj in H. split.
  - rewrite <- H. rewrite (lf_mapM _ _ 18 _ _ (fun v t => dump_lines e m' v t S) E0), L. reflexivity.
  - unfold list_num_lines. rewrite size_all by lia. replace (0 <=? g_len g) with true by lia. cbn [bind].
    rewrite arith_U64_ok by lia. cbn [bind]. destruct (Z.ltb_spec 0 (g_len g)).
    + rewrite arith_U64_ok by lia. f_equal. lia.
    + replace (10 * (g_len g - 0) - 1) with (- 1) by lia. destruct m'; reflexivity.
Qed.

(** ** gribber inspect: the sections *)

Lemma hex_value_digit d : 0 <= d < 16 -> hex_value (hex_digit d) = Some d.
Proof.
  intros H. unfold hex_value, hex_digit. rewrite bz_zb. destruct (Z.ltb_spec d 10).
  - rewrite Z.mod_small by lia. replace (48 <=? 48 + d) with true by lia. replace (48 + d <=? 57) with true by lia. cbn [andb]. f_equal. lia.
  - rewrite Z.mod_small by lia. replace (87 + d <=? 57) with false by lia. rewrite andb_false_r. replace (97 <=? 87 + d) with true by lia.
    replace (87 + d <=? 102) with true by lia. cbn [andb]. f_equal. lia.
Qed.
Lemma hex_loop_spec : forall k n acc, 0 <= n < 16 ^ Z.of_nat k -> exists ds, length ds = k /\
  hex_loop k n acc = map hex_digit ds ++ acc /\ Forall (fun d => 0 <= d < 16) ds /\ forall a, fold_left (fun a x => 16 * a + x) ds a = 16 ^ Z.of_nat k * a + n.
Proof.
  induction k as [|k IH]; intros n acc H.
  - exists []. split; [reflexivity|]. split; [reflexivity|]. split; [constructor|]. intros a. cbn [fold_left]. change (16 ^ Z.of_nat 0) with 1 in *. lia.
  - assert (E : 16 ^ Z.of_nat (S k) = 16 * 16 ^ Z.of_nat k). { rewrite Nat2Z.inj_succ, Z.pow_succ_r by lia. reflexivity. }
    cbn [hex_loop]. destruct (IH (n / 16) (hex_digit (n mod 16) :: acc)) as (ds & L & Q & F & V); [split; [lia|apply Z.div_lt_upper_bound; lia]|].
    exists (ds ++ [n mod 16]). split; [rewrite app_length; cbn [length]; lia|]. split; [|split].
    + rewrite Q, map_app, <- app_assoc. reflexivity.
    + apply Forall_app. split; [exact F|]. constructor; [lia|constructor].
    + intros a. rewrite fold_left_app. cbn [fold_left]. rewrite V, E. lia.
Qed.
Lemma hex16_show n : 0 <= n < 2 ^ 64 -> hex16 n (show_hex16 n).
Proof.
  intros H. unfold show_hex16. destruct (hex_loop_spec 16 n []) as (ds & L & Q & F & V); [change (16 ^ Z.of_nat 16) with (2 ^ 64); exact H|].
  split.
  - rewrite Q, app_nil_r, map_length. exact L.
  - exists ds. split; [|rewrite V; lia]. rewrite Q, app_nil_r, map_map. clear - F. induction F as [|d ds Hd _ IH]; [reflexivity|]. cbn [map]. rewrite IH, hex_value_digit by exact Hd. reflexivity.
Qed.

Definition within (x : section) : Prop := 0 <= s_offset x < 2 ^ 63 /\ 0 <= s_size x < 2 ^ 32 /\ 0 <= s_num x.
Lemma tiles_within : forall P d l endp cur endp' cur', 0 <= cur -> zlen d < 2 ^ 63 -> tiles P d endp cur l endp' cur' -> Forall within l.
Proof.
  induction l as [|x l IH]; intros endp cur endp' cur' Hc Hd H; [constructor|].
  apply SectionStreamP.tiles_inv in H. destruct H as (e1 & c1 & T & H).
  pose proof (TableP.tile_cur _ _ _ _ _ _ _ Hc T) as (E & F & _ & _ & S & _). constructor; [|eapply IH; [|exact Hd|exact H]; lia].
  destruct T as [cur k discipline total G V D Et Sx|cur L O|endp cur size num b N1 N2 L Es En B Sx]; unfold within; cbn [s_offset s_size s_num] in *.
  - destruct G as (F1 & (F2 & F3 & _) & _). lia.
  - lia.
  - pose proof (octets_be_range d cur 4 ltac:(lia)). pose proof (octets_be_range d (cur + 4) 1 ltac:(lia)). lia.
Qed.
Lemma file_within : forall m fuel s g, grib2_read m fuel s = Ret (Ok g) -> zlen (data s) < 2 ^ 63 -> 0 <= pos s <= zlen (data s) -> Forall within (g_sections g).
Proof.
  intros m fuel [d p sc] g E Hl Hp. cbn [data pos] in *.
  destruct (grib2_read_inv m fuel _ g E Hl ltac:(cbn [pos]; lia)) as (HR & _).
  rewrite <- (app_nil_r (map Ok _)) in HR. apply Run_split in HR. destruct HR as (it' & HS & _).
  destruct (SectionStreamP.steps_tiles m d _ _ it' p p (SectionStreamP.Inv_start m d p sc Hl Hp) HS) as (s' & e2 & c2 & T & _).
  eapply tiles_within; [|exact Hl|exact T]. lia.
Qed.

Definition section_row (i : nat) (s : section) : list byte :=
  pad_left 5 (show_uint (Z.of_nat i)) ++ str " │ " ++ show_hex16 (s_offset s) ++ str " - " ++ show_hex16 (s_offset s + s_size s) ++
            str " │ Section " ++ show_uint (s_num s) ++ lf.
Lemma section_rows_eq m l : Forall within l -> forall i, exists ls, section_rows m (Z.of_nat i) l = Ret ls /\ length ls = length l /\
  forall k s line, nth_error l k = Some s -> nth_error ls k = Some line -> line = section_row (i + k) s.
Proof.
  induction 1 as [|x l (W1 & W2 & W3) F IH]; intros i; cbn [section_rows].
  - exists []. split; [reflexivity|]. split; [reflexivity|]. intros [|k] s line E; discriminate.
  - rewrite arith_U64_ok by lia. cbn [bind]. destruct (IH (S i)) as (ls & E & L & K).
    replace (Z.of_nat i + 1) with (Z.of_nat (S i)) by lia. rewrite E. cbn [bind]. eexists. split; [reflexivity|]. split; [cbn [length]; lia|].
    intros [|k] s line Hs Hl; cbn [nth_error] in *.
    + assert (s = x) by congruence. subst s. replace (i + 0)%nat with i by lia. unfold section_row. congruence.
    + replace (i + S k)%nat with (S i + k)%nat by lia. apply K; assumption.
Qed.
Lemma section_row_line i s : within s -> section_line i s (section_row i s).
Proof.
  intros (W1 & W2 & W3). eexists _, _, _, _, _. split; [apply written_show; lia|]. split; [apply right_iff; reflexivity|].
  split; [apply hex16_show; lia|]. split; [apply hex16_show; lia|]. split; [apply written_show; lia|]. reflexivity.
Qed.
Lemma section_row_lf i s : line_feeds (section_row i s) = 1.
Proof.
  unfold section_row. rewrite !lf_app. rewrite (lf_none (pad_left _ _)) by nl. rewrite !(lf_none (show_hex16 _)) by nl. rewrite (lf_none (show_uint _)) by nl. reflexivity.
Qed.

(** ** gribber inspect: the submessages *)

Definition at_index (l : list section) (x : Z * section) : Prop := 0 <= fst x /\ nth_error l (Z.to_nat (fst x)) = Some (snd x).
Lemma view_section_at g i x : view_section g i = Some x -> at_index (g_sections g) x.
Proof.
  intros H. unfold view_section, get in H. destruct (Z.leb_spec 0 i); [|discriminate].
  destruct (nth_error (g_sections g) (Z.to_nat i)) as [s|] eqn:E; [|discriminate]. injection H as <-. split; [assumption|exact E].
Qed.
Lemma make_view_at : forall g w v, make_view g w = Some v ->
  let ok := at_index (g_sections g) in
  ok (u_3 v) /\ ok (u_4 v) /\ ok (u_5 v) /\ ok (u_6 v) /\ ok (u_7 v) /\ match u_2 v with Some x => ok x | None => True end.
Proof.
  intros g w v H ok. unfold make_view in H.
  destruct (view_section g (u_0 w)) as [x0|] eqn:E0; [|discriminate]. destruct (view_section g (u_1 w)) as [x1|] eqn:E1; [|discriminate].
  destruct (view_section g (u_3 w)) as [x3|] eqn:E3; [|discriminate]. destruct (view_section g (u_4 w)) as [x4|] eqn:E4; [|discriminate].
  destruct (view_section g (u_5 w)) as [x5|] eqn:E5; [|discriminate]. destruct (view_section g (u_6 w)) as [x6|] eqn:E6; [|discriminate].
  destruct (view_section g (u_7 w)) as [x7|] eqn:E7; [|discriminate]. destruct (view_section g (u_8 w)) as [x8|] eqn:E8; [|discriminate].
  injection H as <-. cbn [u_2 u_3 u_4 u_5 u_6 u_7].
  repeat (split; [eapply view_section_at; eassumption|]). destruct (u_2 w) as [i|]; [|exact I].
  destruct (view_section g i) as [x|] eqn:E2; [eapply view_section_at; exact E2|exact I].
Qed.

Lemma good_codes v d total i p3 p p5 n k : good v d total i p3 p p5 n k ->
  (exists x, 0 <= x /\ get_tmpl_code (snd (u_3 v)) = Ret (Some (3, x)) /\ has_template (snd (u_3 v))) /\
  (exists x, 0 <= x /\ get_tmpl_code (snd (u_4 v)) = Ret (Some (4, x)) /\ has_template (snd (u_4 v))) /\
  (exists x, 0 <= x /\ get_tmpl_code (snd (u_5 v)) = Ret (Some (5, x)) /\ has_template (snd (u_5 v))).
Proof.
  intros G. split; [|split].
  - pose proof (G_l3 _ _ _ _ _ _ _ _ _ G). destruct (read_be_some 2 p3 7) as (x & Hx & Rx); [lia|lia|lia|]. exists x. split; [lia|]. split.
    + unfold get_tmpl_code. rewrite (G_3 _ _ _ _ _ _ _ _ _ G), (G_n3 _ _ _ _ _ _ _ _ _ G). unfold grid_tmpl_num, read_u16. rewrite Hx. reflexivity.
    + unfold has_template. rewrite (G_3 _ _ _ _ _ _ _ _ _ G). assumption.
  - pose proof (G_l4 _ _ _ _ _ _ _ _ _ G). destruct (read_be_some 2 p 2) as (x & Hx & Rx); [lia|lia|lia|]. exists x. split; [lia|]. split.
    + unfold get_tmpl_code. rewrite (G_4 _ _ _ _ _ _ _ _ _ G), (G_n4 _ _ _ _ _ _ _ _ _ G). unfold prod_tmpl_num, read_u16. rewrite Hx. reflexivity.
    + unfold has_template. rewrite (G_4 _ _ _ _ _ _ _ _ _ G). assumption.
  - pose proof (G_l5 _ _ _ _ _ _ _ _ _ G). destruct (read_be_some 2 p5 4) as (x & Hx & Rx); [lia|lia|lia|]. exists x. split; [lia|]. split.
    + unfold get_tmpl_code. rewrite (G_5 _ _ _ _ _ _ _ _ _ G), (G_n5 _ _ _ _ _ _ _ _ _ G). unfold repr_tmpl_num, read_u16. rewrite Hx. reflexivity.
    + unfold has_template. rewrite (G_5 _ _ _ _ _ _ _ _ _ G). assumption.
Qed.

Lemma shows_template_text c : 0 <= fst c -> 0 <= snd c -> shows_template c (template_text c).
Proof. intros A B. eexists _, _. split; [apply written_show; exact A|]. split; [apply written_show; exact B|]. reflexivity. Qed.
Lemma template_cell_ok s c : 0 <= fst c -> 0 <= snd c -> get_tmpl_code s = Ret (Some c) -> has_template s ->
  template_cell s = Ret (pad_right 7 (template_text c)) /\ exists x t, template_of s x /\ shows_template x t /\ left 7 t (pad_right 7 (template_text c)).
Proof.
  intros A B E H. unfold template_cell. rewrite E. cbn [bind]. split; [reflexivity|]. exists c, (template_text c). split; [|split].
  - destruct (tmpl_code_spec s H) as (o & Eo & K). rewrite E in Eo. apply K. congruence.
  - apply shows_template_text; assumption.
  - apply left_iff. reflexivity.
Qed.
Lemma index_cell_ok l x : at_index l x -> exists k n, nth_error l k = Some (snd x) /\ written (Z.of_nat k) n /\ right 5 n (index_cell (fst x)).
Proof.
  intros (A & B). exists (Z.to_nat (fst x)), (show_uint (fst x)). split; [exact B|]. split; [rewrite Z2Nat.id by exact A; apply written_show; exact A|].
  apply right_iff. reflexivity.
Qed.

Lemma inspect_row_ok g w v u d total i p3 p p5 n k : make_view g w = Some v -> shows (g_sections g) u v -> good v d total i p3 p p5 n k ->
  exists line, inspect_row v = Ret line /\ submessage_line (g_sections g) u line /\ line_feeds line = 1.
Proof.
  intros M (S1 & S2 & _ & _ & T2 & T3 & T4 & T5 & T6 & T7 & _) G.
  destruct (make_view_at g w v M) as (A3 & A4 & A5 & A6 & A7 & A2).
  destruct (good_codes _ _ _ _ _ _ _ _ _ G) as ((x3 & R3 & C3 & H3) & (x4 & R4 & C4 & H4) & (x5 & R5 & C5 & H5)).
  destruct (template_cell_ok _ (3, x3) ltac:(cbn; lia) R3 C3 H3) as (K3 & L3).
  destruct (template_cell_ok _ (4, x4) ltac:(cbn; lia) R4 C4 H4) as (K4 & L4).
  destruct (template_cell_ok _ (5, x5) ltac:(cbn; lia) R5 C5 H5) as (K5 & L5).
  unfold inspect_row. rewrite K3. cbn [bind]. rewrite K4. cbn [bind]. rewrite K5. cbn [bind]. eexists. split; [reflexivity|]. split.
  - unfold submessage_line. cbv zeta. rewrite <- S1, <- S2, <- T3, <- T4, <- T5, <- T6, <- T7.
    exists (show_uint (u_mi v)), (show_uint (u_si v)). do 10 eexists.
    split; [apply written_show; exact (G_mi _ _ _ _ _ _ _ _ _ G)|]. split; [apply written_show; exact (G_si _ _ _ _ _ _ _ _ _ G)|].
    split; [apply right_iff; reflexivity|]. split; [|split; [apply index_cell_ok; exact A3|]; split; [apply index_cell_ok; exact A4|];
      split; [apply index_cell_ok; exact A5|]; split; [apply index_cell_ok; exact A6|]; split; [apply index_cell_ok; exact A7|];
      split; [exact L3|]; split; [exact L4|]; split; [exact L5|]; reflexivity].
    destruct (u_2 v) as [x|]; cbn [option_map] in *; rewrite <- T2; [|reflexivity]. exact (index_cell_ok _ _ A2).
  - assert (O : nolf (optional_cell (option_map fst (u_2 v)))). { unfold optional_cell. destruct (option_map fst (u_2 v)); nl. }
    assert (J : forall j, nolf (index_cell j)) by (intros; unfold index_cell; nl).
    assert (TT : forall c, nolf (template_text c)) by (intros; unfold template_text; nl).
    pose proof (nl_id v).
    rewrite !lf_app. rewrite (lf_none (pad_left 8 _)) by nl. rewrite (lf_none _ O), !(lf_none _ (J _)).
    rewrite !(lf_none (pad_right 7 _)) by (apply nl_right, TT). reflexivity.
Qed.

(** ** gribber inspect: the templates *)

Lemma template_row_ok e c : compiles e -> In (fst c) [3; 4; 5] -> 0 <= snd c -> template_line e c (template_row e c).
Proof.
  intros Ce I B. assert (A : 0 <= fst c) by (destruct I as [<-|[<-|[<-|[]]]]; lia).
  assert (K : exists table, In (fst c, table) template_tables /\ template_describe e c = Some (table_text e table (snd c))).
  { destruct c as [a b]. cbn [fst snd] in *. destruct I as [<-|[<-|[<-|[]]]]; eexists; (split; [|reflexivity]); cbn; tauto. }
  destruct K as (table & T & D). unfold template_row. rewrite D. eexists _, _, _, table.
  split; [apply shows_template_text; assumption|]. split; [exact T|]. split; [apply looked_iff; [exact Ce|exact B|reflexivity]|].
  split; [apply left_iff; reflexivity|]. reflexivity.
Qed.
Lemma template_row_lf e c : single_lines e -> line_feeds (template_row e c) = 1.
Proof.
  intros S. assert (TT : nolf (template_text c)) by (unfold template_text; nl). unfold template_row. destruct (template_describe e c) as [d|] eqn:D.
  - assert (nolf d). { unfold template_describe in D. destruct (fst c) as [|q|q]; try discriminate. do 3 (try (destruct q as [q|q|])); try discriminate; injection D as <-; nl. }
    rewrite !lf_app, (lf_none (pad_right _ _)) by nl. rewrite (lf_none d) by assumption. reflexivity.
  - rewrite lf_app, (lf_none _ TT). reflexivity.
Qed.
Lemma insert_length c l : length (insert_tmpl c l) = S (length l).
Proof. induction l as [|x l IH]; [reflexivity|]. cbn [insert_tmpl]. destruct (tmpl_leb c x); cbn [length]; [reflexivity|]. rewrite IH. reflexivity. Qed.
Lemma sort_length l : length (sort_tmpl l) = length l.
Proof. unfold sort_tmpl. induction l as [|x l IH]; [reflexivity|]. cbn [fold_right]. rewrite insert_length, IH. reflexivity. Qed.
Lemma templates_length order sects l : (forall l, Permutation (order l) l) -> get_templates order sects = Ret l -> (length l <= length sects)%nat.
Proof.
  intros Ho H. unfold get_templates in H. unbind H. ret H. rewrite sort_length, (Permutation_length (Ho _)).
  transitivity (length a); [apply NoDup_incl_length; [apply NoDup_nodup|intros x; apply nodup_In]|].
  clear Ho. revert a E. induction sects as [|s sects IH]; intros a E; cbn [filter_map_out] in E; [ret E; cbn; lia|].
  unbind E. specialize (IH _ E1). destruct a0; ret E; cbn [length]; lia.
Qed.

(** ** gribber inspect *)

Lemma sections_count : forall ms i us, submessages_of_all i ms us -> zlen (flat_map message_sections ms) <= 3 * zlen ms + 6 * zlen us.
Proof.
  intros ms i us H. induction H as [|i m ms us us' (L & _) _ IH]; [cbn; lia|]. cbn [flat_map]. rewrite !zlen_app, zlen_cons.
  assert (K : forall gs, zlen (flat_map group_sections gs) <= 6 * zlen gs).
  { induction gs as [|x gs IHg]; [cbn; lia|]. cbn [flat_map]. rewrite zlen_app, zlen_cons.
    assert (zlen (group_sections x) <= 6); [|lia]. unfold group_sections. destruct (gr2 x), (gr3 x); cbn; lia. }
  assert (EM : zlen (message_sections m) = 1 + (1 + (zlen (flat_map group_sections (groups m)) + zlen [ms8 m]))) by (unfold message_sections; rewrite !zlen_cons, zlen_app; reflexivity).
  specialize (K (groups m)). replace (zlen us) with (zlen (groups m)) by (unfold zlen; lia). 
  change (zlen [ms8 m]) with 1 in EM. lia.
Qed.

Record inspected (g : grib2) (us : list (submessage section)) : Prop := {
  I_ok : forall e m order color k, compiles e -> (forall l, Permutation (order l) l) ->
    exists body, item_text e m order color g k = Ret body /\ shows_item e color (g_sections g) us k body;
  I_len : forall e m order color k body, single_lines e -> (forall l, Permutation (order l) l) -> item_text e m order color g k = Ret body ->
    exists n, item_len m order g k = Ret n /\ 0 <= n < 2 ^ 62 /\ line_feeds body = n + (match k with SubMessages => 1 | _ => 0 end)
}.
Lemma file_inspected : forall m fuel s g, grib2_read m fuel s = Ret (Ok g) -> zlen (data s) < 2 ^ 63 -> 0 <= pos s <= zlen (data s) ->
  exists ms us, Forall wf_message ms /\ g_sections g = flat_map message_sections ms /\ submessages_of_all 0 ms us /\ zlen us = g_len g /\ inspected g us.
Proof.
  intros m fuel s g E Hl Hp. destruct (file_good m fuel s g E Hl Hp) as (ms & us & vs & W & Es & U & S & L & M & Gd & R & Lm).
  pose proof (len_bound m fuel s g E Hl Hp) as B. pose proof (zlen_nonneg _ (g_subs g)) as B0. fold (g_len g) in B0.
  assert (Lu : zlen us = g_len g) by (rewrite <- L; unfold zlen; f_equal; eapply F2_length; exact S).
  pose proof (sections_count ms 0 us U) as SC. rewrite <- Es in SC.
  pose proof (file_within m fuel s g E Hl Hp) as FW.
  exists ms, us. repeat (split; [assumption|]).
  assert (MR : exists ls, mapM inspect_row vs = Ret ls /\ Forall2 (submessage_line (g_sections g)) us ls /\ Forall (fun t => line_feeds t = 1) ls).
  { unfold all_views in M. clear - S M Gd. revert us S. induction M as [|w v ws vs Hv M IH]; intros us S; inversion S as [|u ? us' ? Hu S']; subst.
    - exists []. split; [reflexivity|]. split; constructor.
    - destruct (Gd v (or_introl eq_refl)) as (d & total & i & p3 & p & p5 & n & k & G).
      destruct (inspect_row_ok g w v u d total i p3 p p5 n k Hv Hu G) as (line & El & Sl & Ll).
      destruct (IH (fun v Hv => Gd v (or_intror Hv)) us' S') as (ls & Els & Fls & Lls).
      exists (line :: ls). cbn [mapM]. rewrite El. cbn [bind]. rewrite Els. cbn [bind]. split; [reflexivity|]. split; constructor; assumption. }
  destruct MR as (ls & Els & Fls & Lls). split.
  - intros e m' order color k Ce Ho. destruct k; cbn [item_text shows_item].
    + destruct (section_rows_eq m' _ FW 0) as (rs & Er & Lr & Kr). change (Z.of_nat 0) with 0 in Er. rewrite Er. cbn [bind]. eexists. split; [reflexivity|].
      exists rs. split; [exact Lr|]. split; [reflexivity|]. intros i x line Hx Hline. rewrite (Kr i x line Hx Hline). apply section_row_line.
      rewrite Forall_forall in FW. apply FW. apply nth_error_In in Hx. exact Hx.
    + rewrite (all_of_map _ g vs _ M), Els, bold_eq. cbn [bind]. eexists. split; [reflexivity|]. exists ls. split; [exact Fls|]. reflexivity.
    + destruct (file_templates m fuel s g order E Hl Hp Ho) as (cs & Ec & Sc & Ic). rewrite Ec. cbn [bind]. eexists. split; [reflexivity|].
      exists cs, (map (template_row e) cs). split; [exact Sc|]. split; [exact Ic|]. split; [|reflexivity].
      assert (K : Forall (fun c => In (fst c) [3; 4; 5] /\ 0 <= snd c) cs).
      { rewrite Forall_forall. intros c Hc. apply Ic in Hc. destruct Hc as (x & Hx & (p & off & Hb & ->)). cbn [fst snd]. split; [|apply be_range].
        pose proof (file_sections_headers m fuel s g E Hl Hp) as HH. rewrite Forall_forall in HH. destruct (HH x Hx) as (P0 & H0).
        destruct (s_num x =? 0) eqn:N0; [destruct H0 as (_ & _ & H0); destruct Hb as [(Hb & _)|[(Hb & _)|(Hb & _)]]; congruence|].
        destruct (s_num x =? 8) eqn:N8; [destruct H0 as (_ & H0 & _); destruct Hb as [(Hb & _)|[(Hb & _)|(Hb & _)]]; congruence|].
        destruct H0 as (_ & _ & _ & b & Eb & (_ & Hb')).
        destruct Hb' as [(N & -> & _)|[(N & -> & _)|[(N & -> & _)|[(N & -> & _)|[(N & -> & _)|[(N & -> & _)|(N & ->)]]]]]];
          destruct Hb as [(Hb & _)|[(Hb & _)|(Hb & _)]]; try congruence; rewrite N; cbn; tauto. }
      clear - K Ce. induction K as [|c cs (A & B) _ IH]; constructor; [apply template_row_ok; assumption|exact IH].
  - intros e m' order color k body Sg Ho H. destruct k; cbn [item_text item_len] in *.
    + destruct (section_rows_eq m' _ FW 0) as (rs & Er & Lr & Kr). change (Z.of_nat 0) with 0 in Er. rewrite Er in H. cbn [bind] in H. apply ret_inj in H. subst body.
      eexists. split; [reflexivity|]. split; [pose proof (zlen_nonneg _ (g_sections g)); lia|]. rewrite (lf_concat 1).
      * unfold zlen. lia.
      * rewrite Forall_forall. intros t Ht. apply In_nth_error in Ht. destruct Ht as (j & Ht).
        destruct (nth_error (g_sections g) j) as [x|] eqn:Hx.
        -- rewrite (Kr j x t Hx Ht). apply section_row_lf.
        -- apply nth_error_None in Hx. assert (j < length rs)%nat by (apply nth_error_Some; congruence). lia.
    + rewrite (all_of_map _ g vs _ M), Els, bold_eq in H. cbn [bind] in H. apply ret_inj in H. subst body.
      rewrite size_all by lia. replace (0 <=? g_len g) with true by lia. eexists. split; [reflexivity|]. split; [lia|].
      rewrite !lf_app, lf_bold by (apply nl_str; vm_compute; reflexivity). rewrite (lf_concat 1 ls Lls).
      replace (zlen ls) with (g_len g); [unfold lf; rewrite lf_lf; lia|]. rewrite <- Lu. unfold zlen. f_equal. eapply F2_length. exact Fls.
    + unbind H. apply ret_inj in H. subst body. rewrite E0. cbn [bind]. eexists. split; [reflexivity|].
      pose proof (templates_length order _ _ Ho E0) as TL. split; [unfold zlen in *; lia|].
      rewrite (lf_concat 1).
      * unfold zlen. rewrite map_length. lia.
      * rewrite Forall_forall. intros t Ht. apply in_map_iff in Ht. destruct Ht as (c & <- & _). apply template_row_lf. exact Sg.
Qed.

(** C71 *)
Lemma inspection : forall m fuel s g, grib2_read m fuel s = Ret (Ok g) -> zlen (data s) < 2 ^ 63 -> 0 <= pos s <= zlen (data s) ->
  exists ms us, Forall wf_message ms /\ g_sections g = flat_map message_sections ms /\ submessages_of_all 0 ms us /\ zlen us = g_len g /\
  forall e m' order color items, compiles e -> (forall l, Permutation (order l) l) ->
    exists parts, Forall2 (shows_part e color (g_sections g) us (2 <=? zlen items)) items parts /\
      inspect_text e m' order color g items = Ret (separated parts).
Proof.
  intros m fuel s g E Hl Hp. destruct (file_inspected m fuel s g E Hl Hp) as (ms & us & W & Es & U & Lu & I).
  exists ms, us. repeat (split; [assumption|]). intros e m' order color items Ce Ho. unfold inspect_text, with_headers.
  generalize (2 <=? zlen items) as many. intros many. induction items as [|k items IH]; cbn [inspect_loop].
  - exists []. split; [constructor|reflexivity].
  - destruct IH as (parts & F & Er). destruct (I_ok g us I e m' order color k Ce Ho) as (body & Eb & Sb). rewrite Eb. cbn [bind]. rewrite Er. cbn [bind].
    exists (((if many then bold_yellow color (item_title k) ++ [x0a] else []) ++ body) :: parts). split.
    + constructor; [|exact F]. exists body. split; [exact Sb|reflexivity].
    + f_equal. rewrite bold_yellow_eq. replace (title k ++ str ":") with (item_title k) by (destruct k; reflexivity).
      rewrite app_assoc. inversion F as [E1 E2|k' t items' parts' Ht F' E1 E2]; subst.
      * cbn [separated]. rewrite !app_nil_r. reflexivity.
      * unfold lf. cbn [separated]. reflexivity.
Qed.
Lemma items_asked : forall a b c, inspect_items a b c = filter (asked a b c) [Sections; SubMessages; Templates].
Proof. intros [|] [|] [|]; reflexivity. Qed.

Definition is_submessages (k : item_kind) : bool := match k with SubMessages => true | _ => false end.
(** C70 *)
Lemma inspect_lines : forall m fuel s g, grib2_read m fuel s = Ret (Ok g) -> zlen (data s) < 2 ^ 63 -> 0 <= pos s <= zlen (data s) ->
  forall e m' order color a b c t, single_lines e -> (forall l, Permutation (order l) l) -> 
  inspect_text e m' order color g (inspect_items a b c) = Ret t ->
  exists n, inspect_num_lines m' order g (inspect_items a b c) = Ret n /\
    line_feeds t = if asked a b c SubMessages then n + 1 else n.
Proof.
  intros m fuel s g E Hl Hp e m' order color a b c t Sg Ho H. destruct (file_inspected m fuel s g E Hl Hp) as (ms & us & W & Es & U & Lu & I).
  assert (L : 1 <= zlen (inspect_items a b c) <= 3) by (destruct a, b, c; cbn; lia).
  assert (Lk : zlen (filter is_submessages (inspect_items a b c)) = if asked a b c SubMessages then 1 else 0) by (destruct a, b, c; reflexivity).
  unfold inspect_text in H. unfold inspect_num_lines. generalize dependent (inspect_items a b c). intros items H L Lk.
  generalize dependent (with_headers items). intros many H.
  assert (K : forall items t count, zlen items <= 3 -> 0 <= count -> count + (2 ^ 62 + 1) * zlen items < 2 ^ 64 - 10 -> inspect_loop e m' order color many g items = Ret t ->
    exists n, count_loop m' order many g items count = Ret n /\ 0 <= n <= count + (2 ^ 62 + 1) * zlen items /\
      line_feeds t + count = n + zlen (filter is_submessages items) + Z.max 0 (zlen items - 1)).
  { clear - I Sg Ho. intros its. induction its as [|k items IH]; intros t count L C0 C1 H; cbn [inspect_loop count_loop] in *.
    - ret H. exists count. split; [reflexivity|]. cbn. lia.
    - rewrite zlen_cons in *. pose proof (zlen_nonneg _ items) as Z0. unbind H. destruct (I_len g us I e m' order color k a Sg Ho E) as (n & En & Rn & Ln).
      assert (C : exists c', (if many then arith m' Usize (count + 1) else Ret count) = Ret c' /\ c' = count + (if many then 1 else 0)).
      { destruct many; [|exists count; split; [reflexivity|lia]]. exists (count + 1). split; [apply arith_U64_ok; lia|reflexivity]. }
      destruct C as (c' & Ec & Vc). rewrite Ec. cbn [bind]. rewrite En. cbn [bind]. rewrite arith_U64_ok by (destruct many; lia). cbn [bind].
      destruct (IH a0 (c' + n)) as (n' & En' & Rn' & Ln'); [lia|destruct many; lia|destruct many; lia|exact E0|].
      exists n'. split; [exact En'|]. split; [destruct many; lia|]. apply ret_inj in H. subst t. rewrite !lf_app.
      assert (HH : line_feeds (if many then styled color [str "33"; str "1"] (title k ++ str ":") ++ lf else []) = if many then 1 else 0).
      { destruct many; [|reflexivity]. rewrite lf_app, bold_yellow_eq, lf_yellow by (apply nl_app; destruct k; nl). reflexivity. }
      rewrite HH, Ln. cbn [filter].
      assert (HT : line_feeds (match items with [] => [] | _ => lf end) = Z.min 1 (zlen items)).
      { destruct items as [|k2 items]; [reflexivity|]. rewrite zlen_cons. pose proof (zlen_nonneg _ items). unfold lf. rewrite lf_lf. lia. }
      rewrite HT. pose proof (zlen_nonneg _ items). destruct k; cbn [is_submessages]; rewrite ?zlen_cons; destruct many; lia. }
  destruct (K items t 0) as (n & En & Rn & Ln); [lia|lia|lia|exact H|]. rewrite En. cbn [bind]. rewrite arith_U64_ok by lia. cbn [bind]. rewrite arith_U64_ok by lia.
  eexists. split; [reflexivity|]. rewrite Lk in Ln. destruct (asked a b c SubMessages); lia.
Qed.

(** ** gribber info *)

Fixpoint info_list (e : printer) (vs : list view) : outcome (list byte * option grib_error) :=
  match vs with
  | [] => Ret ([], None)
  | v :: vs' =>
      if u_si v =? 0 then
        match s_body (snd (u_0 v)), s_body (snd (u_1 v)) with
        | Some (B0 discipline total), Some (B1 ident) =>
            let! t := ref_time ident in
            match t with
            | Err x => Ret ([], Some x)
            | Ok t =>
                let! block := info_block e (u_mi v) discipline total ident t in
                let! (rest, x) := info_list e vs' in Ret (block ++ rest, x)
            end
        | _, _ => info_list e vs'
        end
      else info_list e vs'
  end.
Lemma info_skip e g vs : all_views g vs -> forall n k, (k + n = length vs)%nat -> info_loop e (S n) g (Z.of_nat k) = info_list e (skipn k vs).
Proof.
  intros H n. induction n as [|n IH]; intros k E.
  - cbn [info_loop]. rewrite (next_at g vs k false H). destruct (nth_error vs k) eqn:N; [assert (nth_error vs k <> None) as N' by congruence; apply nth_error_Some in N'; lia|].
    cbn [bind]. rewrite skipn_all2 by lia. reflexivity.
  - assert (Es : forall v, nth_error vs k = Some v -> skipn k vs = v :: skipn (S k) vs).
    { intros v N. clear - N. revert k N. induction vs as [|x vs IH]; intros [|k] N; cbn in *; try discriminate; [congruence|]. rewrite (IH k N). reflexivity. }
    specialize (IH (S k) ltac:(lia)). rename E into Ek.
    remember (S n) as n1. cbn [info_loop]. subst n1. rewrite (next_at g vs k false H).
    destruct (nth_error vs k) as [v|] eqn:N; [|apply nth_error_None in N; lia]. cbn [bind]. rewrite (Es v eq_refl). cbn [info_list].
    rewrite IH. reflexivity.
Qed.
Lemma info_text_list e g vs : all_views g vs -> info_text e g = info_list e vs.
Proof.
  intros H. unfold info_text. rewrite <- (count_subs g vs H). change 0 with (Z.of_nat 0). rewrite (info_skip e g vs H (length vs) 0) by lia. reflexivity.
Qed.
Lemma info_rest e a b : Forall (fun v => u_si v <> 0) a -> info_list e (a ++ b) = info_list e b.
Proof. induction 1 as [|v a N _ IH]; [reflexivity|]. cbn [app info_list]. replace (u_si v =? 0) with false by lia. exact IH. Qed.

Definition zero_ok (w : nat) (n : Z) : bool :=
  let t := show_zero w n in (length t =? w)%nat && forallb (fun b => (48 <=? bz b) && (bz b <=? 57)) t && (decimal t =? n).
Lemma zero_all w k : (0 < w)%nat -> CalendarP.all_from k 0 (zero_ok w) = true -> forall n, 0 <= n < Z.of_nat k ->
  length (show_zero w n) = w /\ digits (show_zero w n) /\ decimal (show_zero w n) = n.
Proof.
  intros W H n Hn. apply (CalendarP.all_from_spec _ _ _ H) in Hn. unfold zero_ok in Hn. cbv zeta in Hn.
  apply andb_true_iff in Hn. destruct Hn as (Hn & C). apply andb_true_iff in Hn. destruct Hn as (A & B).
  assert (L : length (show_zero w n) = w) by (apply Nat.eqb_eq; exact A). split; [exact L|]. split; [split|lia].
  - intros Q. rewrite Q in L. cbn in L. lia.
  - rewrite forallb_forall in B. rewrite Forall_forall. intros x Hx. specialize (B x Hx). lia.
Qed.
Lemma two_ok n : 0 <= n < 100 -> two_digits n (show_zero 2 n).
Proof. intros H. apply (zero_all 2 100); [lia|vm_compute; reflexivity|lia]. Qed.
Lemma ten_thousand : Z.of_nat (Z.to_nat 10000) = 10000. Proof. reflexivity. Qed.
Lemma four_ok n : 0 <= n <= 9999 -> length (show_zero 4 n) = 4%nat /\ digits (show_zero 4 n) /\ decimal (show_zero 4 n) = n.
Proof.
  intros H. apply (zero_all 4 (Z.to_nat 10000)); [lia|vm_compute; reflexivity|]. rewrite ten_thousand. lia.
Qed.
Lemma date_ok t : 0 <= dt_year t -> 0 <= dt_month t < 100 -> 0 <= dt_day t < 100 -> 0 <= dt_hour t < 100 -> 0 <= dt_minute t < 100 -> 0 <= dt_second t < 100 ->
  shows_date_time t (date_time_text t).
Proof.
  intros Y M D H MI S. unfold date_time_text. destruct (Z.leb_spec (dt_year t) 9999) as [L|L].
  - destruct (four_ok (dt_year t) ltac:(lia)) as (A & B & C).
    eexists (show_zero 4 (dt_year t)), _, _, _, _, _. split; [exact B|]. split; [exact C|]. split; [intros _; exact A|]. split; [lia|].
    split; [apply two_ok; exact M|]. split; [apply two_ok; exact D|]. split; [apply two_ok; exact H|]. split; [apply two_ok; exact MI|]. split; [apply two_ok; exact S|].
    replace (dt_year t <=? 9999) with true by lia. reflexivity.
  - pose proof (written_show (dt_year t) ltac:(lia)) as W. pose proof W as (W1 & W2 & _).
    eexists (show_uint (dt_year t)), _, _, _, _, _. split; [exact W1|]. split; [exact W2|]. split; [lia|]. split; [intros _; exact W|].
    split; [apply two_ok; exact M|]. split; [apply two_ok; exact D|]. split; [apply two_ok; exact H|]. split; [apply two_ok; exact MI|]. split; [apply two_ok; exact S|].
    replace (dt_year t <=? 9999) with false by lia. reflexivity.
Qed.
Lemma octet_some p i : 0 <= i < zlen p -> exists x, octet p i = Ret x /\ 0 <= x < 256.
Proof.
  intros H. unfold octet, index. replace (0 <=? i) with true by lia. cbn [bind].
  destruct (nth_error p (Z.to_nat i)) as [b|] eqn:E; [|apply nth_error_None in E; unfold zlen in H; lia].
  cbn [bind]. eexists. split; [reflexivity|]. apply bz_range.
Qed.
Lemma ref_time_cases p : 16 <= zlen p -> (exists x, ref_time p = Ret (Err x)) \/
  exists t, ref_time p = Ret (Ok t) /\ 0 <= dt_year t /\ 0 <= dt_month t < 100 /\ 0 <= dt_day t < 100 /\ 0 <= dt_hour t < 100 /\ 0 <= dt_minute t < 100 /\ 0 <= dt_second t < 100.
Proof.
  intros H. unfold ref_time. destruct (read_be_some 2 p 7) as (y & Ey & Ry); [lia|lia|lia|]. unfold read_u16. rewrite Ey. cbn [bind].
  destruct (octet_some p 9 ltac:(lia)) as (mo & -> & Rmo). cbn [bind]. destruct (octet_some p 10 ltac:(lia)) as (d & -> & Rd). cbn [bind].
  destruct (octet_some p 11 ltac:(lia)) as (h & -> & Rh). cbn [bind]. destruct (octet_some p 12 ltac:(lia)) as (mi & -> & Rmi). cbn [bind].
  destruct (octet_some p 13 ltac:(lia)) as (s & -> & Rs). cbn [bind]. unfold create_date_time, with_ymd_and_hms.
  match goal with |- context [if ?c then _ else _] => destruct c eqn:C end; [|left; eauto]. right. eexists. split; [reflexivity|]. cbn [dt_year dt_month dt_day dt_hour dt_minute dt_second].
  assert (days_in_month y mo <= 31). { unfold days_in_month. destruct mo as [|q|q]; try lia. do 4 (try (destruct q as [q|q|])); try lia; destruct (is_leap_year y); lia. }
  lia.
Qed.

Lemma info_block_ok e i disc total p t : compiles e -> 0 <= i -> 0 <= disc -> 0 <= total -> 16 <= zlen p -> ref_time p = Ret (Ok t) ->
  exists b, info_block e i disc total p t = Ret b /\ forall s0 s1, s_body s0 = Some (B0 disc total) -> s_body s1 = Some (B1 p) -> info_of e i s0 s1 b.
Proof.
  intros Ce Hi Hd Ht Hp Et.
  destruct (ref_time_cases p Hp) as [(x & Ex)|(t' & Et' & R)]; [congruence|]. assert (t' = t) by congruence. subst t'. destruct R as (R1 & R2 & R3 & R4 & R5 & R6).
  destruct (read_be_some 2 p 0) as (a & Ea & Ra); [lia|lia|lia|]. destruct (read_be_some 2 p 2) as (b & Eb & Rb); [lia|lia|lia|].
  destruct (octet_some p 4 ltac:(lia)) as (c & Ec & Rc). destruct (octet_some p 5 ltac:(lia)) as (d & Ed & Rd). destruct (octet_some p 6 ltac:(lia)) as (f & Ef & Rf).
  destruct (octet_some p 14 ltac:(lia)) as (j & Ej & Rj). destruct (octet_some p 15 ltac:(lia)) as (k & Ek & Rk).
  unfold info_block, centre_id, subcentre_id, master_table_version, local_table_version, ref_time_significance, prod_status, data_type, read_u16.
  rewrite Ea. cbn [bind]. rewrite Eb. cbn [bind]. rewrite Ec. cbn [bind]. rewrite Ed. cbn [bind]. rewrite Ef. cbn [bind]. rewrite Ej. cbn [bind]. rewrite Ek. cbn [bind].
  eexists. split; [reflexivity|]. intros s0 s1 H0 H1. exists disc, total, p, t. split; [exact H0|]. split; [exact H1|]. split; [exact Et|].
  exists a, b, c, d, f, j, k. split; [exact Ea|]. split; [exact Eb|]. split; [exact Ec|]. split; [exact Ed|]. split; [exact Ef|]. split; [exact Ej|]. split; [exact Ek|].
  exists (show_uint i), (table_text e CodeTable0_0 disc), (show_uint total), (table_text e CommonCodeTable11 a), (show_uint b),
    (show_uint c), (table_text e CommonCodeTable00 c), (show_uint d), (table_text e CodeTable1_1 d), (table_text e CodeTable1_2 f), (date_time_text t),
    (table_text e CodeTable1_3 j), (table_text e CodeTable1_4 k). eexists.
  assert (LK : forall t c, 0 <= c -> looked_up e t c (table_text e t c)) by (intros; apply looked_iff; [exact Ce|assumption|reflexivity]).
  split; [apply written_show; lia|]. split; [apply LK; lia|]. split; [apply written_show; lia|]. split; [apply LK; lia|]. split; [apply written_show; lia|].
  split; [apply written_show; lia|]. split; [apply LK; lia|]. split; [apply written_show; lia|]. split; [apply LK; lia|]. split; [apply LK; lia|].
  split; [apply date_ok; assumption|]. split; [apply LK; lia|]. split; [apply LK; lia|].
  split; [apply labelled_iff; reflexivity|].
  unfold Cli.field. cbn [map concat fst snd]. 
  repeat match goal with |- context [pad_right 44 ?x] => let y := eval vm_compute in (pad_right 44 x) in change (pad_right 44 x) with y end.
  rewrite !app_nil_r. rewrite <- !app_assoc. reflexivity.
Qed.

Lemma app_inv2 A B (R : A -> B -> Prop) l1 l2 r : Forall2 R (l1 ++ l2) r -> exists r1 r2, r = r1 ++ r2 /\ Forall2 R l1 r1 /\ Forall2 R l2 r2.
Proof. intros H. apply Forall2_app_inv_l in H. destruct H as (r1 & r2 & H1 & H2 & ->). eauto. Qed.

Lemma info_messages e l : compiles e -> forall i ms us, submessages_of_all i ms us -> Forall wf_message ms -> 0 <= i -> forall vs, Forall2 (shows l) us vs ->
  (forall v, In v vs -> exists disc total i p3 p p5 n k, good v disc total i p3 p p5 n k) ->
  exists blocks x, info_list e vs = Ret (concat blocks, x) /\ (length blocks <= length ms)%nat /\
    (forall k b, nth_error blocks k = Some b -> exists msg, nth_error ms k = Some msg /\ info_of e (i + Z.of_nat k) (ms0 msg) (ms1 msg) b) /\
    match x with
    | None => length blocks = length ms
    | Some err => exists msg p, nth_error ms (length blocks) = Some msg /\ s_body (ms1 msg) = Some (B1 p) /\ ref_time p = Ret (Err err)
    end.
Proof.
  intros Ce i ms us H. induction H as [i|i m ms us us' (L & H) _ IH]; intros W Hi vs S Gd.
  - inversion S; subst. exists [], None. split; [reflexivity|]. split; [cbn; lia|]. split; [intros [|k] b K; discriminate|reflexivity].
  - inversion W as [|? ? Wm Ws]; subst. destruct Wm as (_ & _ & _ & _ & (g0 & gs & Eg & _)).
    apply app_inv2 in S. destruct S as (va & vb & -> & Sa & Sb).
    destruct us as [|u us]; [rewrite Eg in L; discriminate|]. inversion Sa as [|? v ? va' Sv Sa']; subst.
    destruct (H 0%nat u eq_refl) as (U1 & U2 & U3 & U4 & _). destruct Sv as (V1 & V2 & V3 & V4 & _).
    destruct (Gd v (or_introl eq_refl)) as (disc & total & ip & p3 & p & p5 & n & k & G).
    assert (Rest : Forall (fun v => u_si v <> 0) va').
    { rewrite Forall_forall. intros v' Hv'. destruct (Forall2_in_r _ _ _ _ _ v' Sa' Hv') as (u' & Hu' & (_ & Q & _)).
      apply In_nth_error in Hu'. destruct Hu' as (j & Hj). destruct (H (Datatypes.S j) u' Hj) as (_ & Q' & _). lia. }
    cbn [app info_list]. replace (u_si v =? 0) with true by lia.
    rewrite (G_0 _ _ _ _ _ _ _ _ _ G), (G_1 _ _ _ _ _ _ _ _ _ G). rewrite info_rest by exact Rest.
    assert (B0' : s_body (ms0 m) = Some (B0 disc total)) by (rewrite <- U3, <- V3; exact (G_0 _ _ _ _ _ _ _ _ _ G)).
    assert (B1' : s_body (ms1 m) = Some (B1 ip)) by (rewrite <- U4, <- V4; exact (G_1 _ _ _ _ _ _ _ _ _ G)).
    destruct (ref_time_cases ip (G_i _ _ _ _ _ _ _ _ _ G)) as [(x & Ex)|(t & Et & _)].
    + rewrite Ex. cbn [bind]. exists [], (Some x). split; [reflexivity|]. split; [cbn; lia|]. split; [intros [|j] b K; discriminate|].
      exists m, ip. split; [reflexivity|]. split; assumption.
    + rewrite Et. cbn [bind].
      destruct (info_block_ok e (u_mi v) disc total ip t Ce ltac:(lia) (G_d _ _ _ _ _ _ _ _ _ G) (G_total _ _ _ _ _ _ _ _ _ G) (G_i _ _ _ _ _ _ _ _ _ G) Et) as (b & Eb & Ib).
      rewrite Eb. cbn [bind]. destruct (IH Ws ltac:(lia) vb Sb) as (blocks & x & Er & Lb & Kb & Xb).
      { intros v' Hv'. apply Gd. right. apply in_or_app. right. exact Hv'. }
      rewrite Er. cbn [bind]. exists (b :: blocks), x. split; [reflexivity|]. split; [cbn [length]; lia|]. split.
      * intros [|j] b' Hb; cbn [nth_error] in *.
        -- assert (b' = b) by congruence. subst b'. exists m. split; [reflexivity|]. replace (i + Z.of_nat 0) with (u_mi v) by lia. apply Ib; assumption.
        -- destruct (Kb j b' Hb) as (msg & Em & Im). exists msg. split; [exact Em|]. replace (i + Z.of_nat (Datatypes.S j)) with (i + 1 + Z.of_nat j) by lia. exact Im.
      * destruct x as [err|]; [exact Xb|cbn [length]; lia].
Qed.

(** C72 *)
Lemma information : forall m fuel s g, grib2_read m fuel s = Ret (Ok g) -> zlen (data s) < 2 ^ 63 -> 0 <= pos s <= zlen (data s) ->
  exists ms, Forall wf_message ms /\ g_sections g = flat_map message_sections ms /\
  forall e, compiles e -> exists blocks x, info_text e g = Ret (concat blocks, x) /\
    (forall i b, nth_error blocks i = Some b -> exists msg, nth_error ms i = Some msg /\ info_of e (Z.of_nat i) (ms0 msg) (ms1 msg) b) /\
    match x with
    | None => length blocks = length ms
    | Some err => exists msg p, nth_error ms (length blocks) = Some msg /\ s_body (ms1 msg) = Some (B1 p) /\ ref_time p = Ret (Err err)
    end.
Proof.
  intros m fuel s g E Hl Hp. destruct (file_good m fuel s g E Hl Hp) as (ms & us & vs & W & Es & U & S & L & M & Gd & _).
  exists ms. split; [exact W|]. split; [exact Es|]. intros e Ce. rewrite (info_text_list e g vs M).
  destruct (info_messages e _ Ce 0 ms us U W ltac:(lia) vs S Gd) as (blocks & x & A & _ & B & C). exists blocks, x. split; [exact A|]. split; [exact B|exact C].
Qed.
Lemma scrolls : forall m fuel s g, grib2_read m fuel s = Ret (Ok g) -> zlen (data s) < 2 ^ 63 -> 0 <= pos s <= zlen (data s) ->
  forall e m' color t height, single_lines e -> list_text e m' color true g = Ret t -> 0 < g_len g -> 10 * g_len g - 1 <= height < 18 * g_len g ->
  exists n, list_num_lines m' true g = Ret n /\ starts_pager height n = false /\ height < line_feeds t.
Proof.
  intros m fuel s g E Hl Hp e m' color t h Sg H Hg Hh. destruct (dump_text_lines m fuel s g E Hl Hp e m' color t Sg H) as (A & B).
  replace (0 <? g_len g) with true in B by lia. eexists. split; [exact B|]. unfold starts_pager. split; lia.
Qed.
