(** Proofs about text: numbers, words, lines (Model/Text.v). *)
From Coq Require Import Lia ZifyBool ZifyNat Strings.String.
From Verif Require Import Model.Base Model.Tools Model.Text Model.Tables Spec.ToolsS Spec.TablesS.
From Verif Require Import Proofs.BaseLemmas Proofs.ToolsP.
Ltac Zify.zify_post_hook ::= Z.div_mod_to_equations.

(** ** Numbers *)
Lemma parse_digits_inv max s : forall a v, parse_digits max a s = Some v -> Forall (fun b => 48 <= bz b <= 57) s.
Proof.
  induction s as [|b s IH]; intros a v H; [constructor|]. cbn [parse_digits] in H. destruct (is_digit b) eqn:E; [|discriminate].
  destruct (a * 10 + (bz b - 48) <=? max); [|discriminate]. constructor; [now apply is_digit_spec|exact (IH _ _ H)].
Qed.

Lemma parse_uint_iff max w v : 0 <= max -> parse_uint max w = Some v <-> numeral max w v.
Proof.
  intros Hm. split.
  - intros H. unfold parse_uint in H. destruct w as [|b w]; [discriminate|]. destruct (bz b =? 43) eqn:E.
    + destruct w as [|c w]; [discriminate|]. pose proof (parse_digits_inv _ _ _ _ H) as F.
      exists (c :: w). split; [split; [discriminate|exact F]|]. split; [right; f_equal; apply Z.eqb_eq in E; rewrite <- (zb_bz b), E; reflexivity|].
      rewrite parse_digits_spec in H by (assumption || lia). destruct (dec_from 0 (c :: w) <=? max) eqn:L; [|discriminate]. injection H as <-.
      split; [reflexivity|]. apply Z.leb_le in L. exact L.
    + pose proof (parse_digits_inv _ _ _ _ H) as F. exists (b :: w). split; [split; [discriminate|exact F]|]. split; [now left|].
      rewrite parse_digits_spec in H by (assumption || lia). destruct (dec_from 0 (b :: w) <=? max) eqn:L; [|discriminate]. injection H as <-.
      split; [reflexivity|]. apply Z.leb_le in L. exact L.
  - intros (d & D & [->| ->] & -> & L).
    + rewrite parse_uint_digits by assumption. replace (decimal d <=? max) with true by lia. reflexivity.
    + cbn [parse_uint]. change (bz x2b =? 43) with true. cbv iota. destruct d as [|c d]; [destruct D; congruence|].
      pose proof (parse_uint_digits max (c :: d) D Hm) as P. destruct D as [_ F]. inversion F as [|? ? Hc _]. subst.
      unfold parse_uint in P. replace (bz c =? 43) with false in P by lia. rewrite P. replace (decimal (c :: d) <=? max) with true by lia. reflexivity.
Qed.

Lemma numeral_unique max w v v' : 0 <= max -> numeral max w v -> numeral max w v' -> v = v'.
Proof. intros Hm A B. apply parse_uint_iff in A; [|exact Hm]. apply parse_uint_iff in B; [|exact Hm]. congruence. Qed.

Lemma numeral_range max w v : numeral max w v -> 0 <= v <= max.
Proof. intros (d & D & _ & -> & L). pose proof (decimal_nonneg d D). lia. Qed.

(** Characters of numerals. *)
Lemma numeral_chars max w v : numeral max w v -> w <> [] /\ Forall (fun b => 48 <= bz b <= 57 \/ bz b = 43) w.
Proof.
  intros (d & [N F] & [->| ->] & _).
  - split; [exact N|]. eapply Forall_impl; [|exact F]. intros; now left.
  - split; [discriminate|]. constructor; [right; reflexivity|]. eapply Forall_impl; [|exact F]. intros; now left.
Qed.

Lemma byte_eq b c : bz b = bz c -> b = c.
Proof. intros E. rewrite <- (zb_bz b), E. apply zb_bz. Qed.

Lemma numeral_not_in max w v c : numeral max w v -> ~ (48 <= bz c <= 57) -> bz c <> 43 -> ~ In c w.
Proof. intros H A B I. destruct (numeral_chars _ _ _ H) as [_ F]. rewrite Forall_forall in F. specialize (F c I). lia. Qed.

(** ** Decimal text *)
Lemma fold_dec a s : fold_left (fun a b => 10 * a + (bz b - 48)) s a = dec_from a s. Proof. reflexivity. Qed.
Lemma dec_from_app a s t : dec_from a (s ++ t) = dec_from (dec_from a s) t.
Proof. unfold dec_from. apply fold_left_app. Qed.

Lemma bz_digit k : 0 <= k <= 9 -> bz (zb (48 + k)) = 48 + k.
Proof. intros H. rewrite bz_zb. lia. Qed.

Lemma dec_loop_spec : forall fuel n acc, 0 <= n < 2 ^ Z.of_nat fuel -> (0 < fuel)%nat ->
  exists d, dec_loop fuel n acc = d ++ acc /\ digits d /\ decimal d = n /\ (forall d', d = x30 :: d' -> n = 0 /\ d' = []).
Proof.
  induction fuel as [|fuel IH]; intros n acc Hn Hf; [lia|]. cbn [dec_loop]. destruct (n <? 10) eqn:E.
  - exists [zb (48 + n mod 10)]. split; [reflexivity|]. split; [split; [discriminate|]|split].
    + constructor; [|constructor]. rewrite bz_digit by lia. lia.
    + unfold decimal. cbn [fold_left]. rewrite bz_digit by lia. lia.
    + intros d' H. set (z := zb (48 + n mod 10)) in H. injection H as H <-. split; [|reflexivity]. assert (H' : bz z = 48) by (rewrite H; reflexivity). unfold z in H'. rewrite bz_digit in H' by lia. lia.
  - assert (Hf' : (0 < fuel)%nat). { destruct fuel; [cbn in Hn; lia|lia]. }
    destruct (IH (n / 10) (zb (48 + n mod 10) :: acc)) as (d & -> & [Nd Fd] & Dd & Zd).
    { replace (Z.of_nat (S fuel)) with (Z.of_nat fuel + 1) in Hn by lia. rewrite Z.pow_add_r in Hn by lia. lia. } { exact Hf'. }
    exists (d ++ [zb (48 + n mod 10)]). split; [now rewrite <- app_assoc|]. split; [split|split].
    + destruct d; discriminate.
    + apply Forall_app. split; [exact Fd|]. constructor; [|constructor]. rewrite bz_digit by lia. lia.
    + change (decimal (d ++ [zb (48 + n mod 10)])) with (dec_from 0 (d ++ [zb (48 + n mod 10)])). rewrite dec_from_app.
      change (dec_from 0 d) with (decimal d). rewrite Dd. unfold dec_from. cbn [fold_left]. rewrite bz_digit by lia. lia.
    + intros d' H. destruct d as [|b d]; [congruence|]. cbn [app] in H. injection H as -> H. destruct (Zd d eq_refl) as [Z0 ->]. lia.
Qed.

Lemma show_uint_spec n : 0 <= n -> digits (show_uint n) /\ decimal (show_uint n) = n /\
  (forall d', show_uint n = x30 :: d' -> n = 0 /\ d' = []).
Proof.
  intros Hn. unfold show_uint. destruct (dec_loop_spec (S (Z.to_nat (Z.log2 n))) n []) as (d & -> & A & B & C); [|lia|].
  - split; [exact Hn|]. pose proof (Z.log2_nonneg n). replace (Z.of_nat (S (Z.to_nat (Z.log2 n)))) with (Z.succ (Z.log2 n)) by lia.
    destruct (Z.eq_dec n 0) as [->|Hz]; [reflexivity|]. apply Z.log2_spec. lia.
  - rewrite app_nil_r. auto.
Qed.
Lemma show_uint_digits n : 0 <= n -> digits (show_uint n). Proof. intros H. now apply show_uint_spec. Qed.
Lemma show_uint_decimal n : 0 <= n -> decimal (show_uint n) = n. Proof. intros H. now apply show_uint_spec. Qed.

(** ** Words *)
Fixpoint join_on (c : byte) (ws : list (list byte)) : list byte :=
  match ws with [] => [] | [w] => w | w :: ws' => w ++ c :: join_on c ws' end.

Lemma join_colon ws : join ws = join_on x3a ws.
Proof. induction ws as [|w [|w' ws] IH]; [reflexivity..|]. cbn [join join_on]. cbn [app]. do 2 f_equal. exact IH. Qed.

Lemma split_on_notin c s : ~ In c s -> split_on (bz c) s = [s].
Proof.
  induction s as [|b s IH]; intros N; [reflexivity|]. cbn [split_on]. cbn [In] in N.
  destruct (bz b =? bz c) eqn:E; [exfalso; apply N; left; apply byte_eq; lia|]. rewrite IH by tauto. reflexivity.
Qed.
Lemma split_on_cons c w l : ~ In c w -> split_on (bz c) (w ++ c :: l) = w :: split_on (bz c) l.
Proof.
  induction w as [|b w IH]; intros N; cbn [app split_on]; [rewrite Z.eqb_refl; reflexivity|]. cbn [In] in N.
  destruct (bz b =? bz c) eqn:E; [exfalso; apply N; left; apply byte_eq; lia|]. rewrite IH by tauto. reflexivity.
Qed.
Lemma split_on_join c ws : ws <> [] -> Forall (fun w => ~ In c w) ws -> split_on (bz c) (join_on c ws) = ws.
Proof.
  induction ws as [|w ws IH]; intros N F; [congruence|]. inversion F as [|? ? Hw F']. subst. destruct ws as [|w' ws].
  - cbn [join_on]. now apply split_on_notin.
  - change (join_on c (w :: w' :: ws)) with (w ++ c :: join_on c (w' :: ws)). rewrite split_on_cons by exact Hw. f_equal. apply IH; [discriminate|exact F'].
Qed.
Lemma split_on_inv c s : split_on (bz c) s <> [] /\ join_on c (split_on (bz c) s) = s /\ Forall (fun w => ~ In c w) (split_on (bz c) s).
Proof.
  induction s as [|b s (N & J & F)]; cbn [split_on]; [split; [discriminate|split; [reflexivity|constructor; [intros []|constructor]]]|].
  destruct (bz b =? bz c) eqn:E.
  - split; [discriminate|]. split; [|constructor; [intros []|exact F]]. destruct (split_on (bz c) s) as [|w ws]; [congruence|].
    change (join_on c ([] :: w :: ws)) with ([] ++ c :: join_on c (w :: ws)). rewrite J. cbn [app]. f_equal. apply byte_eq. lia.
  - destruct (split_on (bz c) s) as [|w ws]; [congruence|]. split; [discriminate|]. apply Forall_cons_iff in F; destruct F as [Hw F']. split.
    + destruct ws as [|w' ws]; cbn [join_on app] in J |- *; congruence.
    + constructor; [|exact F']. cbn [In]. intros [->|I]; [lia|exact (Hw I)].
Qed.
Lemma split_on_iff c s ws : split_on (bz c) s = ws <-> ws <> [] /\ s = join_on c ws /\ Forall (fun w => ~ In c w) ws.
Proof.
  split.
  - intros <-. destruct (split_on_inv c s) as (A & B & C). auto.
  - intros (A & -> & C). now apply split_on_join.
Qed.

(** ** C58: lines of a parameter table *)
Lemma entry_iff l e : parse_entry l = Some e <-> table_line l e.
Proof.
  split.
  - intros H. unfold parse_entry in H. pose proof (split_on_inv x3a l) as (N & J & F). change (bz x3a) with 58 in *. destruct (split_on 58 l) as [|a [|x [|v1 [|v2 [|ce [|lv [|c [|n [|name [|desc [|unit more]]]]]]]]]]]; try discriminate.
    destruct (parse_uint 255 a) eqn:P1; [|discriminate]. destruct (parse_uint 255 v1) eqn:P2; [|discriminate].
    destruct (parse_uint 255 v2) eqn:P3; [|discriminate]. destruct (parse_uint 65535 ce) eqn:P4; [|discriminate].
    destruct (parse_uint 255 lv) eqn:P5; [|discriminate]. destruct (parse_uint 255 c) eqn:P6; [|discriminate].
    destruct (parse_uint 255 n) eqn:P7; [|discriminate]. injection H as <-. cbn [w_discipline w_category w_number w_name].
    apply parse_uint_iff in P1, P2, P3, P4, P5, P6, P7; try lia.
    exists a, x, v1, v2, ce, lv, c, n, name, desc, unit, more. do 4 eexists. split; [rewrite join_colon; symmetry; exact J|]. split; [exact F|].
    repeat split; eassumption.
  - intros (a & x & v1 & v2 & ce & lv & c & n & name & desc & unit & more & y1 & y2 & y3 & y4 & -> & F & P1 & P2 & P3 & P4 & P5 & P6 & P7 & ->).
    unfold parse_entry. rewrite join_colon. change 58 with (bz x3a) at 1. rewrite split_on_join by (discriminate || exact F). cbn [app].
    apply parse_uint_iff in P1, P2, P3, P4, P5, P6, P7; try lia. rewrite P1, P2, P3, P4, P5, P6, P7. destruct e; reflexivity.
Qed.

(** ** Lines *)
Lemma lines_notin l : l <> [] -> ~ In x0a l -> lines l = [l].
Proof.
  induction l as [|b l IH]; intros N I; [congruence|]. cbn [lines]. cbn [In] in I.
  destruct (bz b =? 10) eqn:E; [exfalso; apply I; left; apply byte_eq; exact (proj1 (Z.eqb_eq _ _) E)|].
  destruct l as [|c l]; [reflexivity|]. rewrite IH by (discriminate || tauto). reflexivity.
Qed.
Lemma lines_app l rest : ~ In x0a l -> lines (l ++ [x0a] ++ rest) = l :: lines rest.
Proof.
  induction l as [|b l IH]; intros I; cbn [app lines]; [reflexivity|]. cbn [In] in I.
  destruct (bz b =? 10) eqn:E; [exfalso; apply I; left; apply byte_eq; exact (proj1 (Z.eqb_eq _ _) E)|].
  change (l ++ x0a :: rest) with (l ++ [x0a] ++ rest). rewrite IH by tauto. destruct l; reflexivity.
Qed.
Lemma lines_of text ls : text_lines text ls -> lines text = ls.
Proof.
  induction 1 as [|l N I|l rest ls I _ IH]; [reflexivity|now apply lines_notin|]. rewrite lines_app by exact I. now rewrite IH.
Qed.
Lemma lines_exist text : text_lines text (lines text).
Proof.
  remember (length text) as n eqn:En. assert (L : (length text <= n)%nat) by lia. clear En. revert text L.
  induction n as [|n IH]; intros text L; [destruct text; [constructor|cbn in L; lia]|].
  assert (C : ~ In x0a text \/ exists l rest, text = l ++ [x0a] ++ rest /\ ~ In x0a l).
  { clear. induction text as [|b t [N|(l & r & -> & N)]].
    - left. intros [].
    - destruct (Byte.byte_eq_dec b x0a) as [->|Nb]; [right; exists [], t; split; [reflexivity|intros []]|]. left. intros [->|I]; tauto.
    - destruct (Byte.byte_eq_dec b x0a) as [->|Nb]; [right; exists [], (l ++ [x0a] ++ r); split; [reflexivity|intros []]|].
      right. exists (b :: l), r. split; [reflexivity|]. intros [->|I]; tauto. }
  destruct C as [N|(l & rest & -> & N)].
  - destruct text as [|b t]; [constructor|]. rewrite lines_notin by (discriminate || exact N). now constructor.
  - rewrite lines_app by exact N. constructor; [exact N|]. apply IH. rewrite !app_length in L. cbn in L. lia.
Qed.

Lemma is_white_spec b : is_white b = true <-> white b.
Proof.
  unfold white. cbn [In]. split.
  - intros H. assert (K : bz b = 32 \/ bz b = 9 \/ bz b = 10 \/ bz b = 11 \/ bz b = 12 \/ bz b = 13) by (unfold is_white in H; lia).
    repeat (destruct K as [K|K]; [|]); [left|right; left|right; right; left|right; right; right; left|right; right; right; right; left|right; right; right; right; right; left];
      symmetry; apply byte_eq; exact K.
  - intros [<-|[<-|[<-|[<-|[<-|[<-|[]]]]]]]; reflexivity.
Qed.
Lemma trim_start_spec s : exists sp, s = sp ++ trim_start s /\ Forall white sp /\ forall b r, trim_start s = b :: r -> ~ white b.
Proof.
  induction s as [|b s (sp & E & F & N)]; cbn [trim_start].
  - exists []. split; [reflexivity|]. split; [constructor|discriminate].
  - destruct (is_white b) eqn:W.
    + exists (b :: sp). split; [cbn [app]; now rewrite <- E|]. split; [constructor; [now apply is_white_spec|exact F]|exact N].
    + exists []. split; [reflexivity|]. split; [constructor|]. intros c r H. injection H as -> _. rewrite <- is_white_spec. congruence.
Qed.
Lemma trimmed_trim l : trimmed l (trim_end l).
Proof.
  destruct (trim_start_spec (rev l)) as (sp & E & F & N). exists (rev sp). unfold trim_end. split; [|split].
  - rewrite <- rev_app_distr, <- E. symmetry. apply rev_involutive.
  - apply Forall_rev. exact F.
  - intros w' b H. apply (N b (rev w')). rewrite <- (rev_involutive (trim_start (rev l))), H, rev_app_distr. reflexivity.
Qed.
Lemma trimmed_unique l w w' : trimmed l w -> trimmed l w' -> w = w'.
Proof.
  intros (sp & E & F & N) (sp' & E' & F' & N').
  assert (G : forall (a sp b sp' : list byte), a ++ sp = b ++ sp' -> (length a <= length b)%nat -> Forall white sp ->
    (forall b' c, b = b' ++ [c] -> ~ white c) -> a = b).
  { clear. intros a sp b sp' E L F N. assert (K : exists m, b = a ++ m /\ sp = m ++ sp').
    { revert b E L N. induction a as [|x a IH]; intros b E L N; [exists b; split; [reflexivity|exact E]|].
      destruct b as [|y b]; [cbn in L; lia|]. cbn [app] in E. injection E as -> E. cbn [length] in L.
      destruct (IH b E ltac:(lia)) as (m & -> & ->); [intros b' c ->; apply (N (y :: b') c); reflexivity|]. exists m. auto. }
    destruct K as (m & -> & ->). destruct m as [|c m _] using rev_ind; [now rewrite app_nil_r|]. exfalso.
    apply (N (a ++ m) c); [now rewrite app_assoc|]. apply Forall_app in F. destruct F as [F _]. apply Forall_app in F. destruct F as [_ F]. now inversion F. }
  destruct (Nat.le_ge_cases (length w) (length w')) as [L|L].
  - apply (G w sp w' sp'); congruence || assumption.
  - symmetry. apply (G w' sp' w sp); congruence || assumption.
Qed.

Lemma table_iff text ls : text_lines text ls -> forall es,
  parse_table text = Some es <-> Forall2 (fun l e => exists w, trimmed l w /\ table_line w e) ls es.
Proof.
  intros T. unfold parse_table. rewrite (lines_of _ _ T). clear T. induction ls as [|l ls IH]; intros es; cbn [parse_lines].
  - split; [intros H; injection H as <-; constructor|intros H; inversion H; reflexivity].
  - split.
    + intros H. destruct (parse_entry (trim_end l)) as [e|] eqn:P; [|discriminate]. destruct (parse_lines ls) as [es'|] eqn:Ps; [|discriminate].
      injection H as <-. constructor; [|now apply IH]. exists (trim_end l). split; [apply trimmed_trim|now apply entry_iff].
    + intros H. inversion H as [|? e ? es' (w & Tw & L) F]. subst. rewrite (trimmed_unique _ _ _ (trimmed_trim l) Tw).
      rewrite (proj2 (entry_iff w e) L). rewrite (proj2 (IH es') F). reflexivity.
Qed.

Lemma variant_iff name v : variant_of name v <-> v = normalize_name name.
Proof.
  unfold normalize_name. split.
  - intros (v' & -> & F). f_equal. induction F as [|a b l l' H F IH]; [reflexivity|]. cbn [map]. rewrite <- IH. f_equal.
    destruct H as [[-> ->]|[N ->]]; [reflexivity|]. destruct (bz a =? 45) eqn:E; [|reflexivity]. exfalso. apply N. apply byte_eq. exact (proj1 (Z.eqb_eq _ _) E).
  - intros ->. eexists. split; [reflexivity|]. induction name as [|a l IH]; [constructor|]. cbn [map]. constructor; [|exact IH].
    destruct (bz a =? 45) eqn:E.
    + left. split; [|reflexivity]. apply byte_eq. exact (proj1 (Z.eqb_eq _ _) E).
    + right. split; [|reflexivity]. intros ->. discriminate.
Qed.

(** ** Two-character separators *)
Lemma split_on2_none s : ~ has_comma s -> split_on2 44 32 s = [s].
Proof.
  induction s as [|x s IH]; intros N; [reflexivity|]. cbn [split_on2].
  assert (N' : ~ has_comma s). { intros (p & q & ->). apply N. exists (x :: p), q. reflexivity. }
  rewrite (IH N'). destruct s as [|y s]; [reflexivity|]. destruct ((bz x =? 44) && (bz y =? 32)) eqn:E; [|reflexivity].
  exfalso. apply N. exists [], s. cbn [app]. f_equal; [|f_equal]; apply byte_eq; change (bz x2c) with 44; change (bz x20) with 32; lia.
Qed.
Lemma split_on2_cons p q : ~ has_comma p -> split_on2 44 32 (p ++ [x2c; x20] ++ q) = p :: split_on2 44 32 q.
Proof.
  induction p as [|x p IH]; intros N; [reflexivity|].
  assert (N' : ~ has_comma p). { intros (p' & q' & ->). apply N. exists (x :: p'), q'. reflexivity. }
  specialize (IH N'). cbn [app] in IH |- *. cbn [split_on2]. rewrite IH.
  destruct p as [|y p]; cbn [app].
  - destruct ((bz x =? 44) && (bz x2c =? 32)) eqn:E; [change (bz x2c) with 44 in E; lia|reflexivity].
  - destruct ((bz x =? 44) && (bz y =? 32)) eqn:E; [|reflexivity]. exfalso. apply N. exists [], p. cbn [app].
    f_equal; [|f_equal]; apply byte_eq; change (bz x2c) with 44; change (bz x20) with 32; lia.
Qed.
Lemma split_on2_cases s : ~ has_comma s \/ exists p q, s = p ++ [x2c; x20] ++ q /\ ~ has_comma p.
Proof.
  induction s as [|x s IH]; [left; intros (p & q & E); destruct p as [|? [|? p]]; discriminate|].
  destruct IH as [N|(p & q & -> & N)].
  - destruct s as [|y s]; [left; intros (p & q & E); destruct p as [|? [|? p]]; discriminate|].
    destruct ((bz x =? 44) && (bz y =? 32)) eqn:E.
    + right. exists [], s. split; [|intros (p & q & H); destruct p as [|? [|? p]]; discriminate].
      cbn [app]. f_equal; [|f_equal]; apply byte_eq; change (bz x2c) with 44; change (bz x20) with 32; lia.
    + left. intros (p & q & H). destruct p as [|z p]; cbn [app] in H.
      * injection H as -> -> _. discriminate.
      * injection H as -> H. apply N. exists p, q. exact H.
  - destruct ((bz x =? 44) && (bz (hd x2c p) =? 32)) eqn:E.
    + destruct p as [|y p]; cbn [hd] in E; [change (bz x2c) with 44 in E; lia|].
      right. exists [], (p ++ [x2c; x20] ++ q). split; [|intros (p' & q' & H); destruct p' as [|? [|? p']]; discriminate].
      cbn [app]. f_equal; [|f_equal]; apply byte_eq; change (bz x2c) with 44; change (bz x20) with 32; lia.
    + right. exists (x :: p), q. split; [reflexivity|]. intros (p' & q' & H). destruct p' as [|z p']; cbn [app] in H.
      * injection H as -> ->. discriminate.
      * injection H as -> H. apply N. exists p', q'. exact H.
Qed.
