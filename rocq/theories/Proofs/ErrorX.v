(** Texts of errors. *)
From Coq Require Import Lia Strings.String.
From Verif Require Import Model.Base Model.Errors Model.Reader Model.Parser Model.Context Model.Gaussian Model.Proj Model.F32 Model.Helpers Model.Stream Model.Bitmap Model.RunLength Model.Decoder Model.Tools Model.Text Model.Cli Model.ErrorText.
From Verif Require Import Spec.ToolsS.
From Verif Require Import Spec.ReaderS Spec.ParserS Spec.ReadS.
From Verif Require Import Proofs.BaseLemmas Proofs.ToolsP Proofs.TextP Proofs.ToolsX.
From Verif Require Proofs.ReadX Proofs.RefuseX.
From Verif Require Import Spec.CliS Spec.ErrorS.

Lemma uint_written n : 0 <= n -> written n (show_uint n).
Proof. intros H. destruct (show_uint_spec n H) as (A & B & C). split; [exact A|]. split; [exact B|]. intros t' E. apply C in E. tauto. Qed.
Lemma uint_inj a b : 0 <= a -> 0 <= b -> show_uint a = show_uint b -> a = b.
Proof. intros A B E. apply (f_equal decimal) in E. rewrite !show_uint_decimal in E by assumption. exact E. Qed.

Lemma error_text : forall io e, natural e -> error_says (io_eof io) (io_seek io) e (parse_error_text io e).
Proof.
  intros io e H. destruct e; cbn [natural numbered] in H; cbn [error_says parse_error_text]; try reflexivity.
  all: eexists _, _, (show_uint _); split; [reflexivity|]; split; [apply uint_written; exact H|]; try reflexivity.
Qed.

Lemma error_text_inj : forall io e e', io_distinct (io_eof io) (io_seek io) -> library_error e -> library_error e' -> natural e -> natural e' ->
  parse_error_text io e = parse_error_text io e' -> e = e'.
Proof.
  intros io e e' (D & X) O O' N N' H. pose proof (X (show_uint (match e with ReadErrorTooSmall n => n | _ => 0 end))) as (X1 & X2).
  pose proof (X (show_uint (match e' with ReadErrorTooSmall n => n | _ => 0 end))) as (X3 & X4). clear X.
  destruct e as [| |n| |n|n| |n|n|n|w], e' as [| |n'| |n'|n'| |n'|n'|n'|w']; try contradiction O; try contradiction O'; cbn [parse_error_text natural numbered] in *;
    try reflexivity;
    try (exfalso; revert H;
         repeat match goal with |- context [show_uint ?k] => generalize (show_uint k); (let x := fresh "x" in intros x) end;
         try (generalize (io_eof io); (let x := fresh "x" in intros x)); try (generalize (io_seek io); (let x := fresh "x" in intros x));
         intros H; apply (f_equal (firstn 10)) in H; vm_compute in H; discriminate H);
    apply app_inv_head in H; unfold build_error_text, str in *; try (exfalso; first [exact (X1 H) | exact (X2 H) | exact (X3 H) | exact (X4 H) | exact (D H) | exact (D (eq_sym H)) | exact (X1 (eq_sym H)) | exact (X2 (eq_sym H))]).
  all: try (apply app_inv_head in H); f_equal; apply uint_inj; assumption.
Qed.

(** ** Errors of decoding *)

Definition no_lf (t : list byte) : Prop := ~ In x0a t.
Definition put (n : nat) (b : byte) : list byte := if bz b =? 10 then b :: repeat x20 n else [b].
Lemma put_none n t : no_lf t -> flat_map (put n) t = t.
Proof.
  induction t as [|b t IH]; intros H; [reflexivity|]. cbn [flat_map]. rewrite IH by (intros X; apply H; right; exact X). unfold put.
  destruct (Z.eqb_spec (bz b) 10) as [E|E]; [|reflexivity]. exfalso. apply H. left. change 10 with (bz x0a) in E. apply bz_inj. exact E.
Qed.
Lemma spaces_nolf n : no_lf (repeat x20 n).
Proof. intros H. apply repeat_spec in H. discriminate. Qed.
Lemma indented_put t : indented t = repeat x20 4 ++ flat_map (put 4) t.
Proof. reflexivity. Qed.
Lemma flat_put_app n a b : flat_map (put n) (a ++ b) = flat_map (put n) a ++ flat_map (put n) b.
Proof. apply flat_map_app. Qed.
Lemma debug_one name u : no_lf u -> debug_variant name u = name ++ str "(" ++ [x0a] ++ repeat x20 (4 * 1) ++ u ++ str "," ++ [x0a] ++ repeat x20 (4 * 0) ++ str ")".
Proof. intros H. unfold debug_variant. rewrite indented_put, put_none; [rewrite <- !app_assoc; reflexivity|]. intros X. apply in_app_or in X. destruct X as [X|[X|[]]]; [exact (H X)|discriminate X]. Qed.
Lemma debug_two name name2 u : no_lf u -> no_lf name2 -> debug_variant name (debug_variant name2 u) =
  name ++ str "(" ++ [x0a] ++ repeat x20 (4 * 1) ++ (name2 ++ str "(" ++ [x0a] ++ repeat x20 (4 * 2) ++ u ++ str "," ++ [x0a] ++ repeat x20 (4 * 1) ++ str ")") ++ str "," ++ [x0a] ++ repeat x20 (4 * 0) ++ str ")".
Proof.
  intros H H2. rewrite (debug_one name2 u H). unfold debug_variant. rewrite indented_put, !flat_put_app, (put_none 4 u H), (put_none 4 name2 H2), (put_none 4 (repeat x20 (4 * 1)) (spaces_nolf _)).
  rewrite <- !app_assoc. reflexivity.
Qed.
Lemma uint_nolf n : 0 <= n -> no_lf (show_uint n).
Proof.
  intros H X. destruct (show_uint_spec n H) as (A & _). unfold digits in A. rewrite Forall_forall in A. apply A in X. vm_compute in X. intuition congruence.
Qed.
Ltac nolf := let X := fresh in intros X; cbn in X; intuition discriminate.
Lemma decode_error_says : forall png e, ~ In x0a png -> natural_level e -> name_written 0 (decode_error_name png e) (decode_error_text png e).
Proof.
  intros png e Hp Hn. destruct e as [| |e|e|e| |e|]; cbn [decode_error_name decode_error_text name_written]; try reflexivity.
  - eexists. split; [reflexivity|]. rewrite debug_one by (destruct e; nolf). destruct e; reflexivity.
  - eexists. split; [reflexivity|]. rewrite debug_one by (destruct e; nolf). destruct e; reflexivity.
  - eexists. split; [reflexivity|]. rewrite debug_one by (destruct e; nolf). destruct e; reflexivity.
  - eexists. split; [eexists; split; reflexivity|]. rewrite debug_two by (assumption || nolf). reflexivity.
  - destruct e as [| | |l]; cbn [rle_error_text name_written].
    1-3: eexists; (split; [reflexivity|]); rewrite debug_one by nolf; reflexivity.
    eexists. split; [eexists; split; [apply uint_written; exact Hn|reflexivity]|]. rewrite debug_two by (first [apply uint_nolf; exact Hn|nolf]). reflexivity.
Qed.
(** A text has one name. *)
Lemma decode_error_inj : forall png e e', ~ In x0a png -> natural_level e -> natural_level e' -> decode_error_text png e = decode_error_text png e' -> e = e'.
Proof.
  intros png e e' Hp N N' H.
  destruct e as [| |[]|[]|[]| |[| | |l]|], e' as [| |[]|[]|[]| |[| | |l']|]; try reflexivity.
  all: cbn [decode_error_text simple_error_text complex_error_text j2k_error_text rle_error_text natural_level] in *.
  all: try (exfalso; revert H; rewrite ?debug_two by (first [assumption|apply uint_nolf; assumption|nolf]); rewrite ?debug_one by nolf;
            repeat match goal with |- context [show_uint ?k] => generalize (show_uint k); (let x := fresh "x" in intros x) end;
            try (generalize png; (let x := fresh "x" in intros x)); intros H; apply (f_equal (firstn 46)) in H; vm_compute in H; discriminate H).
  rewrite !debug_two in H by (first [apply uint_nolf; assumption|nolf]). do 2 f_equal. apply uint_inj; [assumption..|].
  apply app_inv_head in H. do 2 apply app_inv_head in H. apply app_inv_head in H. rewrite <- !app_assoc in H. do 4 apply app_inv_head in H. apply app_inv_tail in H. exact H.
Qed.

(** The levels that are refused are natural numbers. *)
Definition all_nonneg (s : rle_state) : Prop := (forall x, In x (rle_out s) -> 0 <= x) /\ forall x, rle_cached s = Some x -> 0 <= x.
Lemma rle_loop_nonneg fuel m rlbase lngu : forall it s s', all_nonneg s -> rle_loop fuel m rlbase lngu it s = Ret (Ok s') -> all_nonneg s'.
Proof.
  induction fuel as [|fuel IH]; intros it s s' H E; [discriminate|]. cbn [rle_loop] in E. destruct (nbit_next m it) as [[[v|] it']| |]; cbn [bind] in E; try discriminate.
  - destruct (rle_body m rlbase lngu v s) as [[s1|]| |] eqn:B; cbn [bind] in E; try discriminate. apply IH in E; [exact E|]. clear - H B. unfold rle_body in B.
    assert (W : 0 <= wrap U16 v) by (unfold wrap; cbn [is_signed bits_of]; apply Z.mod_pos_bound; reflexivity).
    destruct H as (H1 & H2). destruct (wrap U16 v <? rlbase).
    + injection B as <-. split; cbn [rle_out rle_cached]; [|congruence]. intros x Hx. apply in_app_or in Hx. destruct Hx as [Hx|[<-|[]]]; auto.
    + destruct (rle_cached s) as [prev|]; [|discriminate]. destruct (arith m U64 ((wrap U16 v - rlbase) * rle_exp s)) as [len| |]; cbn [bind] in B; try discriminate.
      destruct (arith m U64 (rle_exp s * lngu)) as [ex| |]; cbn [bind] in B; try discriminate. injection B as <-. split; cbn [rle_out rle_cached]; [|intros x Hx; apply H2; exact Hx].
      intros x Hx. apply in_app_or in Hx. destruct Hx as [Hx|Hx]; [auto|]. apply repeat_spec in Hx. subst x. apply H2. reflexivity.
  - injection E as <-. exact H.
Qed.
Lemma rle_unpack_nonneg m input nbit maxv n l : rleunpack m input nbit maxv (Some n) = Ret (Ok l) -> forall x, In x l -> 0 <= x.
Proof.
  intros E. unfold rleunpack, rleunpack_fuel in E. destruct (arith m U16 (maxv + 1)) as [a| |]; cbn [bind] in E; try discriminate.
  destruct (shl m U16 1 nbit) as [b| |]; cbn [bind] in E; try discriminate. destruct (arith m U16 (b - a)) as [d| |]; cbn [bind] in E; try discriminate.
  destruct (rle_loop _ m a d _ _) as [[s'|]| |] eqn:L; cbn [bind] in E; try discriminate. apply rle_loop_nonneg in L; [|split; cbn; [tauto|discriminate]].
  destruct (n =? zlen (rle_out s')); [|discriminate]. injection E as <-. apply L.
Qed.
Lemma map_levels_error lm l e : map_levels lm l = Err e -> exists x, In x l /\ e = EDecode (RunLengthError (InvalidLevelValue x)).
Proof.
  induction l as [|x l IH]; intros E; cbn [map_levels] in E; [discriminate|]. destruct (get lm x); [|injection E as <-; exists x; split; [left|]; reflexivity].
  destruct (map_levels lm l) as [vs|e'] eqn:M; [discriminate|]. injection E as ->. destruct (IH eq_refl) as (y & Hy & ->). exists y. split; [right; exact Hy|reflexivity].
Qed.
Lemma dispatch_level : forall c m d e, dispatch c m d = Ret (Err (EDecode e)) -> natural_level e.
Proof.
  intros c m d e H. unfold dispatch in H. destruct (template_values c m d) as [[it|x]| |] eqn:T; cbn [bind] in H; try discriminate.
  - destruct (bitmap_iter f32_nan (d_bitmap d) it (d_total d)); [discriminate|]. injection H as <-. exact I.
  - injection H as ->. destruct (Z.eq_dec (d_template d) 200) as [E|N].
    + unfold template_values in T. rewrite E in T. unfold rle_decode in T.
      destruct (read_u8 (d_sect5 d) 6) as [nb| |]; cbn [bind] in T; try discriminate. destruct (read_u16 (d_sect5 d) 7) as [mv| |]; cbn [bind] in T; try discriminate.
      destruct (read_u16 (d_sect5 d) 9) as [ml| |]; cbn [bind] in T; try discriminate. destruct (read_u8 (d_sect5 d) 11) as [nd| |]; cbn [bind] in T; try discriminate.
      destruct (level_values _ _ _ _) as [lv| |]; cbn [bind] in T; try discriminate. destruct (rleunpack m _ nb mv _) as [[l|r]| |] eqn:U; cbn [bind] in T; try discriminate.
      * destruct (map_levels (f32_nan :: lv) l) as [vs|x] eqn:M; cbn [bind] in T; [discriminate|]. apply map_levels_error in M as (y & Hy & ->). injection T as <-. cbn [natural_level].
        eapply rle_unpack_nonneg; eassumption.
      * injection T as <-. unfold rleunpack, rleunpack_fuel in U. destruct (arith m U16 (mv + 1)) as [a| |]; cbn [bind] in U; try discriminate.
        destruct (shl m U16 1 nb) as [b| |]; cbn [bind] in U; try discriminate. destruct (arith m U16 (b - a)) as [dd| |]; cbn [bind] in U; try discriminate.
        assert (R : forall fuel it s r', rle_loop fuel m a dd it s = Ret (Err r') -> r' = InvalidFirstValue).
        { clear. induction fuel as [|fuel IH]; intros it s r' E; [discriminate|]. cbn [rle_loop] in E. destruct (nbit_next m it) as [[[v|] it']| |]; cbn [bind] in E; try discriminate.
          destruct (rle_body m a dd v s) as [[s1|r1]| |] eqn:B; cbn [bind] in E; try discriminate; [eapply IH; exact E|]. injection E as <-. unfold rle_body in B.
          destruct (wrap U16 v <? a); [discriminate|]. destruct (rle_cached s); [|injection B as <-; reflexivity].
          destruct (arith m U64 _); cbn [bind] in B; try discriminate. destruct (arith m U64 _); cbn [bind] in B; discriminate. }
        destruct (rle_loop _ m a dd _ _) as [[s'|r']| |] eqn:L; cbn [bind] in U; try discriminate.
        -- destruct (d_encoded d =? zlen (rle_out s')); [discriminate|]. injection U as <-. exact I.
        -- injection U as <-. rewrite (R _ _ _ _ L). exact I.
    + apply RefuseX.values_refused in T. destruct T as [T|T]; inversion T; try exact I; congruence.
Qed.

Lemma reported : forall A color (r : outcome (result A cli_error)) text_of out status, report color text_of r = Ret (out, status) ->
  (status = 0 <-> exists a, r = Ret (Ok a)) /\ (status = 1 <-> exists e, r = Ret (Err e)) /\
  (forall e, r = Ret (Err e) -> out = (if color then [x1b] ++ text "[31merror" ++ [x1b] ++ text "[0m" else text "error") ++ text ": " ++ text_of e ++ [x0a]) /\
  (status = 0 -> out = []).
Proof.
  intros A color r text_of out status H. destruct r as [[a|e]| |]; cbn [report] in H; try discriminate.
  - assert (E : out = [] /\ status = 0) by (split; congruence). destruct E as (-> & ->).
    split; [split; [intros _; exists a; reflexivity|reflexivity]|]. split; [split; [discriminate|intros (e & E); discriminate]|]. split; [intros e E; discriminate|reflexivity].
  - assert (E : out = styled color [str "31"] (str "error") ++ str ": " ++ text_of e ++ lf /\ status = 1) by (split; congruence). destruct E as (-> & ->).
    split; [split; [discriminate|intros (a & E); discriminate]|]. split; [split; [intros _; exists e; reflexivity|reflexivity]|]. split; [|discriminate].
    intros e' E. assert (e' = e) by congruence. subst e'. destruct color; reflexivity.
Qed.

(** The errors of the reader have natural numbers. *)
Lemma read_natural : forall m d p fuel, zlen d < 2 ^ 63 -> 0 <= p <= zlen d -> zlen d < Z.of_nat fuel ->
  forall e, grib2_read m fuel (MkSrc d p []) = Ret (Err (EParse e)) -> library_error e /\ natural e.
Proof.
  intros m d p fuel Hl Hp Hf e H. apply (ReadX.read_error_iff m d p fuel Hl Hp Hf) in H.
  destruct H as (ms & pre & rest & endp & cur & _ & _ & _ & HC & HB & HE).
  destruct rest as [|[x|e'] rest]; cbn [order_error broken] in HE, HB.
  - subst e. split; [exact I|]. cbn [natural numbered]. unfold zlen. destruct pre; [congruence|]. rewrite app_length. cbn [length]. lia.
  - destruct HE as [(_ & _ & ->)|(_ & ->)]; (split; [exact I|]); cbn [natural numbered]; unfold zlen; lia.
  - subst e'. destruct rest; cbn [comes] in HC; [|contradiction]. destruct HC; (split; [exact I|]); cbn [natural numbered]; try exact I; try lia; subst; apply be_range.
Qed.

(** A file that cannot be read, or that is empty. *)
Lemma unreadable_report : forall m d p fuel, zlen d < 2 ^ 63 -> 0 <= p <= zlen d -> zlen d < Z.of_nat fuel ->
  forall A k io other id, let run := report false (cli_error_text io other id) (command (A := A) m fuel (MkSrc d p []) k) in
  (forall e, grib2_read m fuel (MkSrc d p []) = Ret (Err (EParse e)) ->
     exists t, error_says (io_eof io) (io_seek io) e t /\ run = Ret (text "error: " ++ t ++ [x0a], 1)) /\
  (forall g, grib2_read m fuel (MkSrc d p []) = Ret (Ok g) -> g_len g = 0 -> run = Ret (text "error: empty GRIB2 data" ++ [x0a], 1)).
Proof.
  intros m d p fuel Hl Hp Hf A k io other id. cbn zeta. unfold command, cli_grib. split.
  - intros e H. exists (parse_error_text io e). split; [apply error_text; exact (proj2 (read_natural _ _ _ _ Hl Hp Hf _ H))|].
    rewrite H. reflexivity.
  - intros g H Hg. rewrite H. cbn [bind]. unfold g_is_empty. rewrite Hg. reflexivity.
Qed.

Lemma decode_error_reported : forall io other id e, ~ In x0a (io_png io) -> natural_level e ->
  name_written 0 (decode_error_name (io_png io) e) (cli_error_text io other id (Grib (EDecode e))).
Proof. intros io other id e. exact (decode_error_says (io_png io) e). Qed.
Lemma decode_error_unambiguous : forall io other id e e', ~ In x0a (io_png io) -> natural_level e -> natural_level e' ->
  cli_error_text io other id (Grib (EDecode e)) = cli_error_text io other id (Grib (EDecode e')) -> e = e'.
Proof. intros io other id e e'. exact (decode_error_inj (io_png io) e e'). Qed.
