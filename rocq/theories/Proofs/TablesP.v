(** Code table databases (Model/Tables.v): subtitles, file names, tables. *)
From Coq Require Import Lia ZifyBool ZifyNat Strings.String Sorting.Sorted.
From Verif Require Import Model.Base Model.Tools Model.Text Model.Tables Spec.ToolsS Spec.TablesS.
From Verif Require Import Proofs.BaseLemmas Proofs.ToolsP Proofs.TextP.
Ltac Zify.zify_post_hook ::= Z.div_mod_to_equations.

(** ** Subtitles *)
Lemma labelled_iff w1 w2 s v : ~ In x20 w1 -> ~ In x20 w2 ->
  labelled w1 w2 s = Some v <-> exists n r, s = w1 ++ x20 :: w2 ++ x20 :: n ++ r /\ numeral 255 n v /\ ends [x20] r.
Proof.
  intros N1 N2. unfold labelled. change 32 with (bz x20). split.
  - intros H. pose proof (split_on_inv x20 s) as (_ & J & _). destruct (split_on (bz x20) s) as [|a [|b [|num rest]]]; try discriminate.
    cbn [firstn] in H. destruct (bytes_dec a w1) as [->|]; [|discriminate]. destruct (bytes_dec b w2) as [->|]; [|discriminate].
    apply parse_uint_iff in H; [|lia]. exists num. destruct rest as [|w rest].
    + exists []. split; [cbn [join_on] in J; rewrite app_nil_r; now symmetry|]. split; [exact H|now left].
    + exists (x20 :: join_on x20 (w :: rest)). split; [symmetry; exact J|]. split; [exact H|]. right. eexists _, _. split; [reflexivity|now left].
  - intros (n & r & -> & Nn & En). assert (In20 : ~ In x20 n) by (apply (numeral_not_in _ _ _ x20 Nn); [change (bz x20) with 32; lia|discriminate]).
    rewrite split_on_cons by exact N1. rewrite split_on_cons by exact N2.
    assert (E : exists rest, split_on (bz x20) (n ++ r) = n :: rest).
    { destruct En as [->|(c & r' & -> & [<-|[]])].
      - rewrite app_nil_r. exists []. now apply split_on_notin.
      - rewrite split_on_cons by exact In20. eauto. }
    destruct E as (rest & ->). cbn [firstn]. destruct (bytes_dec w1 w1) as [_|]; [|congruence]. destruct (bytes_dec w2 w2) as [_|]; [|congruence].
    apply parse_uint_iff; [lia|exact Nn].
Qed.

Lemma no_comma_app p q : ~ In x2c p -> ~ has_comma q -> ~ has_comma (p ++ q).
Proof.
  intros Np Nq (a & b & E). revert p Np E. induction a as [|x a IH]; intros p Np E.
  - destruct p as [|y p]; [apply Nq; exists [], b; exact E|]. cbn [app] in E. injection E as -> _. apply Np. now left.
  - destruct p as [|y p]; [apply Nq; exists (x :: a), b; exact E|]. cbn [app] in E. injection E as -> E. apply (IH p); [intros I; apply Np; now right|exact E].
Qed.
Lemma has_comma_l p q : has_comma p -> has_comma (p ++ q).
Proof. intros (a & b & ->). exists a, (b ++ q). rewrite <- !app_assoc. reflexivity. Qed.
Lemma has_comma_r p q : has_comma q -> has_comma (p ++ q).
Proof. intros (a & b & ->). exists (p ++ a), b. rewrite <- !app_assoc. reflexivity. Qed.

(** The word before the first colon. *)
Lemma split_first c s : exists w ws, split_on (bz c) s = w :: ws /\ ~ In c w /\ exists r, s = w ++ r /\ ends [c] r.
Proof.
  pose proof (split_on_inv c s) as (N & J & F). destruct (split_on (bz c) s) as [|w ws]; [congruence|]. exists w, ws. split; [reflexivity|].
  apply Forall_cons_iff in F. destruct F as [F _]. split; [exact F|]. destruct ws as [|w' ws].
  - exists []. split; [cbn in J; rewrite app_nil_r; now symmetry|now left].
  - exists (c :: join_on c (w' :: ws)). split; [now symmetry|]. right. eexists _, _. split; [reflexivity|now left].
Qed.
Lemma split_first_is c w r : ~ In c w -> ends [c] r -> exists ws, split_on (bz c) (w ++ r) = w :: ws.
Proof.
  intros N [->|(x & r' & -> & [<-|[]])].
  - rewrite app_nil_r. exists []. now apply split_on_notin.
  - rewrite split_on_cons by exact N. eauto.
Qed.
Lemma split2_first s : exists w ws, split_on2 44 32 s = w :: ws /\ ~ has_comma w /\
  (s = w /\ ws = [] \/ exists q, s = w ++ [x2c; x20] ++ q /\ ws = split_on2 44 32 q).
Proof.
  destruct (split_on2_cases s) as [N|(p & q & -> & N)].
  - exists s, []. rewrite split_on2_none by exact N. auto.
  - exists p, (split_on2 44 32 q). rewrite split_on2_cons by exact N. split; [reflexivity|]. split; [exact N|]. right. eauto.
Qed.

Lemma disc_no_space : ~ In x20 (str "Product") /\ ~ In x20 (str "discipline") /\ ~ In x20 (str "parameter") /\ ~ In x20 (str "category").
Proof. repeat split; intros H; cbn in H; repeat (destruct H as [H|H]; [discriminate|]); exact H. Qed.

(** The second part, cut at a colon. *)
Lemma category_iff s c : (exists w ws, split_on 58 s = w :: ws /\ labelled (str "parameter") (str "category") w = Some c) <->
  exists k r, s = text "parameter category " ++ k ++ r /\ numeral 255 k c /\ ends [x20; x3a] r.
Proof.
  destruct disc_no_space as (_ & _ & N3 & N4). change 58 with (bz x3a). split.
  - intros (w & ws & E & L). destruct (split_first x3a s) as (w' & ws' & E' & Nw & r & -> & En). rewrite E' in E. injection E as -> ->.
    apply (labelled_iff _ _ _ _ N3 N4) in L. destruct L as (k & r1 & -> & Nk & E1). exists k, (r1 ++ r).
    split; [change (text "parameter category ") with (str "parameter" ++ x20 :: str "category" ++ [x20]); repeat (rewrite <- app_assoc; cbn [app]); reflexivity|].
    split; [exact Nk|]. destruct E1 as [->|(x & r1' & -> & [<-|[]])]; cbn [app].
    + destruct En as [->|(x & r' & -> & [<-|[]])]; [now left|]. right. eexists _, _. split; [reflexivity|right; now left].
    + right. eexists _, _. split; [reflexivity|now left].
  - intros (k & r & -> & Nk & En).
    assert (Nc : ~ In x3a (text "parameter category " ++ k)).
    { intros I. apply in_app_or in I. destruct I as [I|I].
      - cbn in I. repeat (destruct I as [I|I]; [discriminate|]). exact I.
      - revert I. apply (numeral_not_in _ _ _ x3a Nk); [change (bz x3a) with 58; lia|discriminate]. }
    assert (Lb : forall r1, ends [x20] r1 -> labelled (str "parameter") (str "category") (text "parameter category " ++ k ++ r1) = Some c).
    { intros r1 E1. apply (labelled_iff _ _ _ _ N3 N4). exists k, r1.
      split; [change (text "parameter category ") with (str "parameter" ++ x20 :: str "category" ++ [x20]); repeat (rewrite <- app_assoc; cbn [app]); reflexivity|auto]. }
    (* cut [r] at its first colon *)
    destruct (split_first x3a r) as (r1 & ws & Er & Nr1 & r2 & -> & E2).
    exists (text "parameter category " ++ k ++ r1).
    destruct (split_first_is x3a (text "parameter category " ++ k ++ r1) r2) as (ws' & Ew); [|exact E2|].
    { rewrite app_assoc. intros I. apply in_app_or in I. destruct I as [I|I]; [exact (Nc I)|exact (Nr1 I)]. }
    exists ws'. split; [rewrite <- Ew; f_equal; rewrite <- !app_assoc; reflexivity|]. apply Lb.
    destruct r1 as [|x r1]; [now left|]. right. exists x, r1. split; [reflexivity|].
    destruct En as [En|(y & r' & En & I)]; [discriminate|]. cbn [app] in En. injection En as -> _.
    destruct I as [I|[I|[]]]; [now left|]. exfalso. apply Nr1. now left.
Qed.

Lemma subtitle_iff s a : parse_opt_arg s = Some a <-> subtitle s a.
Proof.
  destruct disc_no_space as (N1 & N2 & _ & _).
  assert (D : forall n r, text "Product discipline " ++ n ++ r = str "Product" ++ x20 :: str "discipline" ++ x20 :: n ++ r).
  { intros n r. change (text "Product discipline ") with (str "Product" ++ x20 :: str "discipline" ++ [x20]). repeat (rewrite <- app_assoc; cbn [app]). reflexivity. }
  assert (Nd : forall n d r, numeral 255 n d -> ~ has_comma r -> ~ has_comma (text "Product discipline " ++ n ++ r)).
  { intros n d r Nn Nr. apply no_comma_app; [intros I; cbn in I; repeat (destruct I as [I|I]; [discriminate|]); exact I|].
    apply no_comma_app; [|exact Nr]. apply (numeral_not_in _ _ _ x2c Nn); [change (bz x2c) with 44; lia|discriminate]. }
  split.
  - intros H. destruct s as [|x s]; [injection H as <-; constructor|]. unfold parse_opt_arg in H. set (s1 := x :: s) in *. clearbody s1. clear x s.
    destruct (split2_first s1) as (w & ws & E & Nw & Hs). rewrite E in H.
    destruct (labelled (str "Product") (str "discipline") w) as [d|] eqn:L; [|discriminate].
    apply (labelled_iff _ _ _ _ N1 N2) in L. destruct L as (n & r & -> & Nn & En). rewrite <- D in *.
    assert (Nr : ~ has_comma r). { intros C. apply Nw. apply has_comma_r, has_comma_r. exact C. }
    destruct Hs as [[-> ->]|(q & -> & ->)]; [injection H as <-; now constructor|].
    destruct (split2_first q) as (w2 & ws2 & E2 & Nw2 & Hs2). rewrite E2 in H.
    destruct (split_on 58 w2) as [|w3 ws3] eqn:E3; [discriminate|].
    destruct (labelled (str "parameter") (str "category") w3) as [c|] eqn:L3; [|discriminate]. injection H as <-.
    destruct (proj1 (category_iff w2 c) (ex_intro _ w3 (ex_intro _ ws3 (conj E3 L3)))) as (k & r2 & Ew2 & Nk & E4). subst w2.
    rewrite <- !app_assoc. change ([x2c; x20] ++ q) with (text ", " ++ q).
    destruct Hs2 as [[-> _]|(q' & -> & _)].
    + change (text ", " ++ text "parameter category " ++ k ++ r2) with (text ", parameter category " ++ k ++ r2). apply subtitle_category; auto.
    + rewrite <- !app_assoc. change (text ", " ++ text "parameter category " ++ k ++ r2 ++ [x2c; x20] ++ q') with (text ", parameter category " ++ k ++ r2 ++ [x2c; x20] ++ q').
      apply subtitle_category; auto. destruct E4 as [->|(y & r' & -> & I)]; [right; eexists; reflexivity|]. left. right. eexists _, _. split; [reflexivity|exact I].
  - intros H. destruct H as [|n d r Nn En Nr|n d r k c r' Nn En Nr Nk Er].
    + reflexivity.
    + unfold parse_opt_arg. destruct (text "Product discipline " ++ n ++ r) as [|x s] eqn:Ex; [discriminate|]. rewrite <- Ex. clear Ex x s.
      rewrite split_on2_none by (eapply Nd; eassumption). rewrite D.
      rewrite (proj2 (labelled_iff _ _ _ d N1 N2)) by (exists n, r; auto). reflexivity.
    + unfold parse_opt_arg. set (s1 := _ ++ _). assert (Es : s1 = (text "Product discipline " ++ n ++ r) ++ [x2c; x20] ++ (text "parameter category " ++ k ++ r')).
      { unfold s1. rewrite <- !app_assoc. reflexivity. }
      clearbody s1. destruct s1 as [|x s]; [discriminate|]. rewrite Es. clear Es x s.
      rewrite split_on2_cons by (eapply Nd; eassumption). rewrite D.
      rewrite (proj2 (labelled_iff _ _ _ d N1 N2)) by (exists n, r; auto).
      assert (K : exists w ws w' ws', split_on2 44 32 (text "parameter category " ++ k ++ r') = w :: ws /\ split_on 58 w = w' :: ws' /\
        labelled (str "parameter") (str "category") w' = Some c).
      { (* cut r' at its first comma *)
        destruct (split2_first r') as (r1 & ws & E & Nr1 & Hr).
        assert (Np : ~ has_comma (text "parameter category " ++ k ++ r1)).
        { apply no_comma_app; [intros I; cbn in I; repeat (destruct I as [I|I]; [discriminate|]); exact I|].
          apply no_comma_app; [|exact Nr1]. apply (numeral_not_in _ _ _ x2c Nk); [change (bz x2c) with 44; lia|discriminate]. }
        assert (E1 : ends [x20; x3a] r1).
        { destruct Hr as [[Hr _]|(q & Hr & _)]; [|].
          - destruct Er as [Er|(q & Er)]; [congruence|]. exfalso. apply Nr1. exists [], q. rewrite <- Hr. exact Er.
          - destruct r1 as [|y r1]; [now left|]. destruct Er as [Er|(q' & Er)].
            + destruct Er as [Er|(z & r2 & Er & I)]; [rewrite Hr in Er; discriminate|]. right. exists y, r1. split; [reflexivity|].
              rewrite Hr in Er. cbn [app] in Er. injection Er as -> _. exact I.
            + exfalso. rewrite Hr in Er. cbn [app] in Er. destruct r1 as [|z r1]; cbn [app] in Er; [injection Er as -> Er _; discriminate|].
              injection Er as -> -> Er. apply Nr1. exists [], r1. reflexivity. }
        destruct (proj2 (category_iff (text "parameter category " ++ k ++ r1) c)) as (w' & ws' & Ew' & Lw'); [exists k, r1; auto|].
        destruct Hr as [[-> _]|(q & -> & _)].
        - exists (text "parameter category " ++ k ++ r1), [], w', ws'. rewrite split_on2_none by exact Np. auto.
        - exists (text "parameter category " ++ k ++ r1), (split_on2 44 32 q), w', ws'.
          split; [|auto]. replace (text "parameter category " ++ k ++ r1 ++ [x2c; x20] ++ q) with ((text "parameter category " ++ k ++ r1) ++ [x2c; x20] ++ q) by (rewrite <- !app_assoc; reflexivity).
          now rewrite split_on2_cons. }
      destruct K as (w & ws & w' & ws' & -> & -> & ->). reflexivity.
Qed.

Lemma subtitle_fun s a a' : subtitle s a -> subtitle s a' -> a = a'.
Proof. intros A B. apply subtitle_iff in A, B. congruence. Qed.

(** ** File names *)
Lemma name_words stem a b : firstn 4 (split_on 95 stem) = [str "GRIB2"; str "CodeFlag"; a; b] <->
  exists r, stem = text "GRIB2_CodeFlag_" ++ a ++ [x5f] ++ b ++ r /\ ~ In x5f a /\ ~ In x5f b /\ ends [x5f] r.
Proof.
  change 95 with (bz x5f). assert (N1 : ~ In x5f (str "GRIB2")) by (intros I; cbn in I; repeat (destruct I as [I|I]; [discriminate|]); exact I).
  assert (N2 : ~ In x5f (str "CodeFlag")) by (intros I; cbn in I; repeat (destruct I as [I|I]; [discriminate|]); exact I).
  assert (D : forall r, text "GRIB2_CodeFlag_" ++ a ++ [x5f] ++ b ++ r = str "GRIB2" ++ x5f :: str "CodeFlag" ++ x5f :: a ++ x5f :: b ++ r) by reflexivity.
  split.
  - intros H. pose proof (split_on_inv x5f stem) as (_ & J & F). destruct (split_on (bz x5f) stem) as [|w1 [|w2 [|w3 [|w4 ws]]]]; try discriminate.
    cbn [firstn] in H. assert (w1 = str "GRIB2" /\ w2 = str "CodeFlag" /\ w3 = a /\ w4 = b) as (-> & -> & -> & ->) by (repeat split; congruence). clear H.
    rewrite !Forall_cons_iff in F. destruct F as (_ & _ & Na & Nb & _). destruct ws as [|w5 ws].
    + exists []. rewrite D, app_nil_r. split; [now symmetry|]. split; [exact Na|]. split; [exact Nb|now left].
    + exists (x5f :: join_on x5f (w5 :: ws)). rewrite D. split; [now symmetry|]. split; [exact Na|]. split; [exact Nb|]. right. eexists _, _. split; [reflexivity|now left].
  - intros (r & -> & Na & Nb & Er). rewrite D. rewrite split_on_cons by exact N1. rewrite split_on_cons by exact N2. rewrite split_on_cons by exact Na.
    destruct (split_first_is x5f b r Nb Er) as (ws & ->). reflexivity.
Qed.

Lemma name_parsed stem s n : file_name stem s n -> exists a b, firstn 4 (split_on 95 stem) = [str "GRIB2"; str "CodeFlag"; a; b] /\
  parse_uint 255 a = Some s /\ parse_uint 255 b = Some n.
Proof.
  intros (a & b & r & -> & A & B & E). exists a, b. split.
  - apply name_words. exists r. split; [reflexivity|]. split; [|split; [|exact E]]; [eapply (numeral_not_in _ _ _ x5f A)|eapply (numeral_not_in _ _ _ x5f B)];
      try discriminate; change (bz x5f) with 95; lia.
  - split; apply parse_uint_iff; lia || assumption.
Qed.

Lemma bytes_dec_refl w : exists e, bytes_dec w w = left e.
Proof. destruct (bytes_dec w w) as [e|N]; [eauto|congruence]. Qed.

Lemma db_load_name stem s n rs d : file_name stem s n -> db_load stem rs d =
  match parse_records [] rs with Some ts => Some (fold_left (fun d t => db_insert (s, n, fst t) (snd t) d) ts d) | None => None end.
Proof.
  intros H. destruct (name_parsed _ _ _ H) as (a & b & E & A & B). unfold db_load. rewrite E.
  destruct (bytes_dec_refl (str "GRIB2")) as (? & ->). destruct (bytes_dec_refl (str "CodeFlag")) as (? & ->). rewrite A, B. reflexivity.
Qed.

Lemma db_load_cases stem rs d : (exists s n, file_name stem s n) \/ (codeflag_name stem /\ db_load stem rs d = None) \/
  (~ codeflag_name stem /\ db_load stem rs d = Some d).
Proof.
  assert (Dec : forall a b, firstn 4 (split_on 95 stem) = [str "GRIB2"; str "CodeFlag"; a; b] -> (exists s n, file_name stem s n) \/ (codeflag_name stem /\ db_load stem rs d = None)).
  { intros a b E. pose proof E as E'. apply name_words in E'. destruct E' as (r & -> & Na & Nb & Er).
    destruct (parse_uint 255 a) as [s|] eqn:A; [destruct (parse_uint 255 b) as [n|] eqn:B|].
    - left. exists s, n, a, b, r. apply parse_uint_iff in A, B; try lia. auto.
    - right. split; [exists a, b, r; auto|]. unfold db_load. rewrite E. destruct (bytes_dec_refl (str "GRIB2")) as (? & ->). destruct (bytes_dec_refl (str "CodeFlag")) as (? & ->). now rewrite A, B.
    - right. split; [exists a, b, r; auto|]. unfold db_load. rewrite E. destruct (bytes_dec_refl (str "GRIB2")) as (? & ->). destruct (bytes_dec_refl (str "CodeFlag")) as (? & ->). now rewrite A. }
  assert (No : (forall a b, firstn 4 (split_on 95 stem) <> [str "GRIB2"; str "CodeFlag"; a; b]) -> ~ codeflag_name stem).
  { intros N (a & b & r & E & Na & Nb & Er). apply (N a b). apply name_words. eauto. }
  destruct (firstn 4 (split_on 95 stem)) as [|w1 [|w2 [|w3 [|w4 [|w5 ws]]]]] eqn:E;
    try (right; right; split; [apply No; intros; congruence|unfold db_load; rewrite E; reflexivity]).
  destruct (bytes_dec w1 (str "GRIB2")) as [->|N1].
  - destruct (bytes_dec w2 (str "CodeFlag")) as [->|N2].
    + destruct (Dec w3 w4 eq_refl) as [D|D]; auto.
    + right. right. split; [apply No; intros; congruence|]. unfold db_load. rewrite E. destruct (bytes_dec_refl (str "GRIB2")) as (? & ->).
      destruct (bytes_dec w2 (str "CodeFlag")); [congruence|reflexivity].
  - right. right. split; [apply No; intros; congruence|]. unfold db_load. rewrite E. destruct (bytes_dec w1 (str "GRIB2")); [congruence|reflexivity].
Qed.

(** ** The database *)
Lemma lex_irrefl l : lex_ltb l l = false.
Proof. induction l as [|x l IH]; [reflexivity|]. cbn [lex_ltb]. unfold lex_ltb in IH. rewrite IH. lia. Qed.
Lemma lex_trans a : forall b c, lex_ltb a b = true -> lex_ltb b c = true -> lex_ltb a c = true.
Proof.
  induction a as [|x a IH]; intros [|y b] [|z c] A B; cbn [lex_ltb] in *; try discriminate. fold (lex_ltb a b) in A. fold (lex_ltb b c) in B. fold (lex_ltb a c).
  specialize (IH b c). destruct (lex_ltb a b), (lex_ltb b c), (lex_ltb a c); try lia; specialize (IH eq_refl eq_refl); discriminate.
Qed.
Lemma lex_total a : forall b, length a = length b -> lex_ltb a b = false -> lex_ltb b a = false -> a = b.
Proof.
  induction a as [|x a IH]; intros [|y b] L A B; cbn in L; try lia; [reflexivity|]. cbn [lex_ltb] in A, B. fold (lex_ltb a b) in A. fold (lex_ltb b a) in B.
  assert (x = y) by lia. subst y. rewrite Z.eqb_refl, Z.ltb_irrefl in *. cbn in A, B. f_equal. apply IH; [lia|assumption..].
Qed.
Lemma key_code_inj k k' : key_code k = key_code k' -> k = k'.
Proof.
  destruct k as [[s n] a], k' as [[s' n'] a']. unfold key_code. destruct a as [|d|d c], a' as [|d'|d' c']; cbn [arg_code]; intros E; congruence.
Qed.
Lemma key_code_len k : length (key_code k) = 5%nat.
Proof. destruct k as [[s n] a]. unfold key_code. destruct (arg_code a) as [t [d c]]. reflexivity. Qed.
Lemma key_total k k' : key_ltb k k' = false -> key_ltb k' k = false -> k = k'.
Proof. intros A B. apply key_code_inj. apply lex_total; [now rewrite !key_code_len|assumption..]. Qed.

Lemma get_insert_same k t d : db_get k (db_insert k t d) = Some t.
Proof.
  induction d as [|[k' t'] d IH]; cbn [db_insert].
  - cbn [db_get]. destruct (key_dec k k); [reflexivity|congruence].
  - destruct (key_ltb k k') eqn:A; [cbn [db_get]; destruct (key_dec k k); [reflexivity|congruence]|].
    destruct (key_ltb k' k) eqn:B; cbn [db_get].
    + destruct (key_dec k k') as [->|]; [|exact IH]. unfold key_ltb in A, B. congruence.
    + destruct (key_dec k k); [reflexivity|congruence].
Qed.
Lemma get_insert_other k k' t d : k' <> k -> db_get k' (db_insert k t d) = db_get k' d.
Proof.
  intros N. induction d as [|[k2 t2] d IH]; cbn [db_insert].
  - cbn [db_get]. destruct (key_dec k' k); [congruence|reflexivity].
  - destruct (key_ltb k k2) eqn:A; [cbn [db_get]; destruct (key_dec k' k); [congruence|reflexivity]|].
    destruct (key_ltb k2 k) eqn:B; cbn [db_get].
    + now rewrite IH.
    + assert (k2 = k) by (symmetry; apply key_total; assumption). subst k2. destruct (key_dec k' k); [congruence|reflexivity].
Qed.

Definition key_lt (k k' : key) : Prop := key_ltb k k' = true.
Lemma insert_in k t d x : In x (db_insert k t d) -> x = (k, t) \/ In x d.
Proof.
  induction d as [|[k' t'] d IH]; cbn [db_insert]; [intros [<-|[]]; auto|]. destruct (key_ltb k k'); [intros [<-|I]; auto|].
  destruct (key_ltb k' k); intros [<-|I]; cbn [In]; auto. destruct (IH I); auto.
Qed.
Lemma insert_sorted k t (d : db) : StronglySorted key_lt (map fst d) -> StronglySorted key_lt (map fst (db_insert k t d)).
Proof.
  induction d as [|[k' t'] d IH]; intros S; cbn [db_insert map fst]; [repeat constructor|].
  cbn [map fst] in S. apply StronglySorted_inv in S. destruct S as [S F]. destruct (key_ltb k k') eqn:A.
  - cbn [map fst]. constructor; [constructor; assumption|]. constructor; [exact A|]. eapply Forall_impl; [|exact F].
    intros x Hx. exact (lex_trans _ _ _ A Hx).
  - destruct (key_ltb k' k) eqn:B; cbn [map fst].
    + constructor; [exact (IH S)|]. apply Forall_forall. intros x I. apply in_map_iff in I. destruct I as (y & <- & I). apply insert_in in I.
      destruct I as [->|I]; [exact B|]. rewrite Forall_forall in F. apply F. apply in_map. exact I.
    + assert (k' = k) by (symmetry; apply key_total; assumption). subst k'. constructor; assumption.
Qed.
Lemma sorted_nodup (d : db) : StronglySorted key_lt (map fst d) -> NoDup (map fst d).
Proof.
  induction (map fst d) as [|k l IH]; intros S; [constructor|]. apply StronglySorted_inv in S. destruct S as [S F]. constructor; [|auto].
  intros I. rewrite Forall_forall in F. specialize (F k I). unfold key_lt, key_ltb in F. rewrite lex_irrefl in F. discriminate.
Qed.

(** ** Records to tables *)
Fixpoint find_arg (a : opt_arg) (acc : list (opt_arg * code_table)) : option code_table :=
  match acc with [] => None | (a', t) :: acc' => if opt_arg_dec a a' then Some t else find_arg a acc' end.

Definition describes_seen (acc : list (opt_arg * code_table)) (seen : list csv_record) : Prop :=
  (forall a r block, last_block a seen r block -> find_arg a acc = Some (block_table r block)) /\
  (forall a, Forall (fun x => ~ is_for a x) seen -> find_arg a acc = None) /\
  match acc with [] => seen = [] | (a, _) :: _ => exists seen' x, seen = seen' ++ [x] /\ is_for a x end.

Lemma last_block_snoc_other a a' seen x r block : is_for a' x -> a <> a' -> last_block a (seen ++ [x]) r block -> last_block a seen r block.
Proof.
  intros Hx Ne (pre & post & E & F & Pre & Post). destruct post as [|y post _] using rev_ind.
  - exfalso. rewrite app_nil_r in E. assert (I : exists l, r :: block = l ++ [x]).
    { destruct (@exists_last _ (r :: block) ltac:(discriminate)) as (l & z & El). rewrite El in E. rewrite app_assoc in E. apply app_inj_tail in E. destruct E as [_ ->]. eauto. }
    destruct I as (l & El). rewrite El in F. apply Forall_app in F. destruct F as [_ F]. inversion F as [|? ? Fx _]. subst. apply Ne. exact (subtitle_fun _ _ _ Fx Hx).
  - replace (pre ++ (r :: block) ++ post ++ [y]) with ((pre ++ (r :: block) ++ post) ++ [y]) in E by (rewrite <- !app_assoc; reflexivity).
    apply app_inj_tail in E. destruct E as [-> ->]. apply Forall_app in Post. exists pre, post. tauto.
Qed.

Lemma last_block_snoc_same a seen x r block : is_for a x -> last_block a (seen ++ [x]) r block ->
  (block = [] /\ r = x /\ forall s' y, seen = s' ++ [y] -> ~ is_for a y) \/
  (exists block', block = block' ++ [x] /\ last_block a seen r block' /\ exists s' y, seen = s' ++ [y] /\ is_for a y).
Proof.
  intros Hx (pre & post & E & F & Pre & Post). destruct post as [|y post _] using rev_ind.
  2:{ exfalso. replace (pre ++ (r :: block) ++ post ++ [y]) with ((pre ++ (r :: block) ++ post) ++ [y]) in E by (rewrite <- !app_assoc; reflexivity).
      apply app_inj_tail in E. destruct E as [_ <-]. apply Forall_app in Post. destruct Post as [_ Post]. inversion Post. contradiction. }
  rewrite app_nil_r in E. destruct block as [|y block _] using rev_ind.
  - left. apply app_inj_tail in E. destruct E as [<- <-]. auto.
  - right. exists block. replace (pre ++ r :: block ++ [y]) with ((pre ++ r :: block) ++ [y]) in E by (rewrite <- app_assoc; reflexivity).
    apply app_inj_tail in E. destruct E as [-> <-]. split; [reflexivity|]. change (r :: block ++ [x]) with ((r :: block) ++ [x]) in F. apply Forall_app in F. destruct F as [F _].
    split; [exists pre, []; rewrite app_nil_r; auto|].
    destruct (@exists_last _ (r :: block) ltac:(discriminate)) as (l & z & El). exists (pre ++ l), z. rewrite El, app_assoc. split; [reflexivity|].
    rewrite El in F. apply Forall_app in F. destruct F as [_ F]. now inversion F.
Qed.

Lemma records_step acc seen x a : describes_seen acc seen -> is_for a x ->
  let row := (rec_code x, rec_desc x) in
  describes_seen (match acc with
                  | (a', t) :: acc' => if opt_arg_dec a a' then (a', MkTable (ct_desc t) (ct_rows t ++ [row])) :: acc' else (a, MkTable (rec_title x) [row]) :: acc
                  | [] => [(a, MkTable (rec_title x) [row])]
                  end) (seen ++ [x]).
Proof.
  intros (L & N & Hd) Hx row. assert (Fx : forall a', is_for a' x -> a' = a) by (intros a' H; exact (subtitle_fun _ _ _ H Hx)).
  assert (None_snoc : forall a', Forall (fun y => ~ is_for a' y) (seen ++ [x]) -> Forall (fun y => ~ is_for a' y) seen /\ a' <> a).
  { intros a' F. apply Forall_app in F. destruct F as [F F2]. split; [exact F|]. inversion F2. intros ->. contradiction. }
  assert (New : forall acc0, acc0 = acc -> match acc with [] => True | (a', _) :: _ => a <> a' end -> describes_seen ((a, MkTable (rec_title x) [row]) :: acc0) (seen ++ [x])).
  { intros acc0 -> Ne. split; [|split].
    - intros a' r block H. cbn [find_arg]. destruct (opt_arg_dec a' a) as [->|Na].
      + destruct (last_block_snoc_same _ _ _ _ _ Hx H) as [(-> & -> & _)|(b & _ & _ & s' & y & Es & Hy)]; [reflexivity|].
        exfalso. destruct acc as [|[a' t'] acc].
        * rewrite Hd in Es. destruct s'; discriminate.
        * destruct Hd as (s2 & y2 & E2 & H2). rewrite E2 in Es. apply app_inj_tail in Es. destruct Es as [_ <-]. apply Ne. exact (subtitle_fun _ _ _ Hy H2).
      + apply L. eapply last_block_snoc_other; eassumption.
    - intros a' F. destruct (None_snoc a' F) as [F' Na]. cbn [find_arg]. destruct (opt_arg_dec a' a); [contradiction|auto].
    - exists seen, x. auto. }
  destruct acc as [|[a' t] acc]; [apply New; auto|]. destruct (opt_arg_dec a a') as [<-|Ne]; [|apply New; auto].
  destruct Hd as (s2 & y2 & E2 & H2). split; [|split].
  - intros a' r block H. cbn [find_arg]. destruct (opt_arg_dec a' a) as [->|Na].
    + destruct (last_block_snoc_same _ _ _ _ _ Hx H) as [(_ & _ & Nl)|(b & -> & Lb & _)]; [destruct (Nl _ _ E2 H2)|].
      apply L in Lb. cbn [find_arg] in Lb. destruct (opt_arg_dec a a); [|congruence]. injection Lb as ->. unfold block_table. cbn [ct_desc ct_rows map]. rewrite map_app. reflexivity.
    + specialize (L a' r block (last_block_snoc_other _ _ _ _ _ _ Hx Na H)). cbn [find_arg] in L. destruct (opt_arg_dec a' a); [contradiction|exact L].
  - intros a' F. destruct (None_snoc a' F) as [F' Na]. cbn [find_arg]. destruct (opt_arg_dec a' a); [contradiction|]. specialize (N a' F'). cbn [find_arg] in N. destruct (opt_arg_dec a' a); [contradiction|exact N].
  - exists seen, x. auto.
Qed.

Lemma records_ok : forall rs acc seen, describes_seen acc seen -> Forall (fun r => exists a, is_for a r) rs ->
  exists ts, parse_records acc (map Some rs) = Some ts /\ describes_seen (rev ts) (seen ++ rs).
Proof.
  induction rs as [|x rs IH]; intros acc seen D F; cbn [map parse_records].
  - exists (rev acc). rewrite rev_involutive, app_nil_r. auto.
  - apply Forall_cons_iff in F. destruct F as [(a & Hx) F]. pose proof Hx as Hx'. apply subtitle_iff in Hx'. unfold is_for in *. rewrite Hx'.
    pose proof (records_step acc seen x a D Hx) as S. cbn zeta in S. replace (seen ++ x :: rs) with ((seen ++ [x]) ++ rs) by (rewrite <- app_assoc; reflexivity).
    destruct acc as [|[a' t] acc]; [exact (IH _ _ S F)|]. destruct (opt_arg_dec a a') as [e|e]; exact (IH _ _ S F).
Qed.

Lemma records_refused : forall rs acc, In None rs \/ (exists r, In (Some r) rs /\ forall a, ~ is_for a r) -> parse_records acc rs = None.
Proof.
  induction rs as [|[x|] rs IH]; intros acc H; cbn [parse_records].
  - destruct H as [[]|(r & [] & _)].
  - destruct (parse_opt_arg (rec_subtitle x)) as [a|] eqn:P; [|reflexivity].
    assert (H' : In None rs \/ (exists r, In (Some r) rs /\ forall a, ~ is_for a r)).
    { destruct H as [[H|H]|(r & [H|H] & N)]; [discriminate|now left| |right; eauto]. injection H as <-. exfalso. apply (N a). now apply subtitle_iff. }
    destruct acc as [|[a' t] acc]; [now apply IH|]. destruct (opt_arg_dec a a'); now apply IH.
  - reflexivity.
Qed.

Lemma records_inv rs acc ts : parse_records acc rs = Some ts -> exists rs', rs = map Some rs' /\ Forall (fun r => exists a, is_for a r) rs'.
Proof.
  revert acc. induction rs as [|[x|] rs IH]; intros acc H; cbn [parse_records] in H.
  - exists []. split; [reflexivity|constructor].
  - destruct (parse_opt_arg (rec_subtitle x)) as [a|] eqn:P; [|discriminate].
    assert (H' : exists acc', parse_records acc' rs = Some ts).
    { destruct acc as [|[a' t] acc]; [eauto|]. destruct (opt_arg_dec a a'); eauto. }
    destruct H' as (acc' & H'). destruct (IH acc' H') as (rs' & -> & F). exists (x :: rs'). split; [reflexivity|]. constructor; [exists a; now apply subtitle_iff|exact F].
  - discriminate.
Qed.

Lemma find_app a l l' : find_arg a (l ++ l') = match find_arg a l with Some t => Some t | None => find_arg a l' end.
Proof. induction l as [|[a' t] l IH]; [reflexivity|]. cbn [app find_arg]. destruct (opt_arg_dec a a'); [reflexivity|exact IH]. Qed.

Lemma fold_insert s n ts : forall d k, db_get k (fold_left (fun d t => db_insert (s, n, fst t) (snd t) d) ts d) =
  let '(s', n', a) := k in if (s' =? s) && (n' =? n) then match find_arg a (rev ts) with Some t => Some t | None => db_get k d end else db_get k d.
Proof.
  induction ts as [|[a0 t] ts IH]; intros d [[s' n'] a]; cbn [fold_left rev].
  - destruct ((s' =? s) && (n' =? n)); reflexivity.
  - rewrite (IH _ (s', n', a)). cbn [fst snd]. destruct ((s' =? s) && (n' =? n)) eqn:E.
    + assert (s' = s /\ n' = n) as [-> ->] by lia. rewrite find_app. cbn [find_arg]. destruct (find_arg a (rev ts)); [reflexivity|].
      destruct (opt_arg_dec a a0) as [->|Na]; [apply get_insert_same|apply get_insert_other; congruence].
    + apply get_insert_other. intros K. injection K as -> -> ->. lia.
Qed.

Lemma seen_nil : describes_seen [] [].
Proof.
  split; [|split; [reflexivity|reflexivity]]. intros a r block (pre & post & E & _). destruct pre; discriminate.
Qed.

Lemma load_ok stem s n rs d : file_name stem s n -> Forall (fun r => exists a, is_for a r) rs ->
  exists d', db_load stem (map Some rs) d = Some d' /\
  (forall a r block, last_block a rs r block -> db_get (s, n, a) d' = Some (block_table r block)) /\
  (forall s' n' a, (s', n') <> (s, n) \/ Forall (fun r => ~ is_for a r) rs -> db_get (s', n', a) d' = db_get (s', n', a) d).
Proof.
  intros Nm F. rewrite (db_load_name _ _ _ _ _ Nm). destruct (records_ok rs [] [] seen_nil F) as (ts & -> & (L & N & _)). cbn [app] in *.
  eexists. split; [reflexivity|]. split.
  - intros a r block H. rewrite fold_insert. rewrite !Z.eqb_refl. cbn [andb]. now rewrite (L _ _ _ H).
  - intros s' n' a H. rewrite fold_insert. destruct ((s' =? s) && (n' =? n)) eqn:E; [|reflexivity].
    destruct H as [H|H]; [exfalso; apply H; f_equal; lia|]. now rewrite (N a H).
Qed.

Lemma block_exists a : forall rs, (exists r, In r rs /\ is_for a r) -> exists r block, last_block a rs r block.
Proof.
  assert (Dec : forall x, is_for a x \/ ~ is_for a x).
  { intros x. unfold is_for. destruct (parse_opt_arg (rec_subtitle x)) as [b|] eqn:P.
    - destruct (opt_arg_dec b a) as [->|N]; [left; now apply subtitle_iff|]. right. intros H. apply subtitle_iff in H. congruence.
    - right. intros H. apply subtitle_iff in H. congruence. }
  induction rs as [|x rs IH] using rev_ind; intros (r & I & H); [destruct I|].
  destruct (Dec x) as [Hx|Nx].
  - destruct rs as [|y rs _] using rev_ind.
    + exists x, [], [], []. split; [reflexivity|]. split; [repeat constructor; exact Hx|]. split; [intros pre' z E; destruct pre'; discriminate|constructor].
    + destruct (Dec y) as [Hy|Ny].
      * destruct IH as (r' & block & pre & post & E & F & Pre & Post); [exists y; split; [apply in_or_app; right; now left|exact Hy]|].
        destruct post as [|z post _] using rev_ind.
        -- rewrite app_nil_r in E. exists r', (block ++ [x]), pre, []. rewrite E, app_nil_r, <- app_assoc. split; [reflexivity|].
           split; [change (r' :: block ++ [x]) with ((r' :: block) ++ [x]); apply Forall_app; split; [exact F|repeat constructor; exact Hx]|]. auto.
        -- exfalso. replace (pre ++ (r' :: block) ++ post ++ [z]) with ((pre ++ (r' :: block) ++ post) ++ [z]) in E by (rewrite <- !app_assoc; reflexivity).
           apply app_inj_tail in E. destruct E as [_ <-]. apply Forall_app in Post. destruct Post as [_ Post]. inversion Post. contradiction.
      * exists x, [], (rs ++ [y]), []. split; [reflexivity|]. split; [repeat constructor; exact Hx|]. split; [|constructor].
        intros pre' z E. apply app_inj_tail in E. destruct E as [_ <-]. exact Ny.
  - apply in_app_or in I. destruct I as [I|[->|[]]]; [|contradiction].
    destruct (IH (ex_intro _ r (conj I H))) as (r' & block & pre & post & -> & F & Pre & Post).
    exists r', block, pre, (post ++ [x]). split; [rewrite <- !app_assoc; reflexivity|]. split; [exact F|]. split; [exact Pre|].
    apply Forall_app. split; [exact Post|repeat constructor; exact Nx].
Qed.
