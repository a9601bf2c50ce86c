(** Calls of the JPEG 2000 library. *)
From Coq Require Import Lia ZifyBool ZifyNat ZifyN.
From Verif Require Import Model.Base Model.Errors Model.Decoder Model.Opj Spec.OpjS Proofs.BaseLemmas Proofs.ReaderP.
Ltac Zify.zify_post_hook ::= Z.div_mod_to_equations.

Lemma read_at m buf off nb : zlen buf < 2 ^ 63 -> 0 <= off <= zlen buf ->
  opj_stream_read m buf off false (Z.of_N nb) = Ret (firstn (N.to_nat nb) (skipn (Z.to_nat off) buf), Z.min (zlen buf) (off + Z.of_N nb)).
Proof.
  intros Hb Ho. unfold opj_stream_read. rewrite (arith_U64_ok m (zlen buf - off)) by lia. cbn [bind].
  rewrite (arith_U64_ok m) by lia. cbn [bind]. unfold slice.
  destruct ((0 <=? off) && (off <=? off + Z.min (zlen buf - off) (Z.of_N nb)) && (off + Z.min (zlen buf - off) (Z.of_N nb) <=? zlen buf)) eqn:E; [|lia].
  cbn [bind]. f_equal. f_equal; [|lia].
  rewrite <- (firstn_skipn (N.to_nat nb) (skipn (Z.to_nat off) buf)) at 1. unfold zlen in *.
  destruct (Z_le_gt_dec (Z.of_N nb) (Z.of_nat (length buf) - off)).
  - replace (Z.to_nat (off + _ - off)) with (N.to_nat nb) by lia. rewrite firstn_skipn. reflexivity.
  - rewrite firstn_skipn, !firstn_all2; try reflexivity; rewrite skipn_length; lia.
Qed.
Lemma run_true A m buf (p : process A) : zlen buf < 2 ^ 63 -> forall off, 0 <= off <= zlen buf ->
  exists n a off', run_process m true buf off p = (repeat (Use OUser) n, Ret (a, off')) /\ 0 <= off' <= zlen buf /\
    served (skipn (Z.to_nat off) buf) p = (a, skipn (Z.to_nat off') buf).
Proof.
  intros Hb. induction p as [a|null nb k IH]; intros off Ho; cbn [run_process served].
  - exists 0%nat, a, off. auto.
  - destruct null.
    + cbn [opj_stream_read]. destruct (IH [] off Ho) as (n & a & off' & -> & Ho' & Sv). exists (S n), a, off'. auto.
    + rewrite read_at by assumption. destruct (IH (firstn (N.to_nat nb) (skipn (Z.to_nat off) buf)) (Z.min (zlen buf) (off + Z.of_N nb))) as (n & a & off' & -> & Ho' & Sv); [lia|].
      exists (S n), a, off'. split; [reflexivity|]. split; [exact Ho'|]. rewrite <- Sv. f_equal. rewrite skipn_skipn'.
      unfold zlen in *. destruct (Z_le_gt_dec (off + Z.of_N nb) (Z.of_nat (length buf))).
      * f_equal. lia.
      * rewrite !skipn_all2 by lia. reflexivity.
Qed.
Lemma run_false A m buf (p : process A) off : run_process m false buf off p = ([], Ret (fst (served [] p), off)) /\ snd (served [] p) = [].
Proof.
  induction p as [a|null nb k IH]; cbn [run_process served]; [auto|].
  destruct (IH []) as (E & S). rewrite E. destruct null; [auto|]. rewrite skipn_nil, firstn_nil. auto.
Qed.

Lemma opj_result : forall lib m buf png, zlen buf < 2 ^ 63 -> snd (opj_decode lib m buf) = decode_jp2 (MkCodecs (image_of lib) png) m buf.
Proof.
  intros lib m buf png Hb. unfold opj_decode, decode_jp2, image_of. cbn [opj_image].
  destruct (lib_codec lib); cbn [negb andb]; [|reflexivity]. destruct (lib_setup lib); cbn [negb]; [|reflexivity].
  destruct (lib_stream lib).
  - destruct (run_true _ m buf (lib_header lib) Hb 0 ltac:(unfold zlen; lia)) as (n & h & off & -> & Ho & S). cbn [Z.to_nat skipn] in S. rewrite S.
    destruct h as [im|]; [reflexivity|]. destruct (run_true _ m buf (lib_body lib) Hb off Ho) as (n' & b & off' & -> & _ & S'). rewrite S'. cbn [fst].
    destruct b as [|i]; reflexivity.
  - destruct (run_false _ m buf (lib_header lib) 0) as (-> & S). destruct (served [] (lib_header lib)) as [h rest]. cbn [fst snd] in *. subst rest.
    destruct h as [im|]; [reflexivity|]. destruct (run_false _ m buf (lib_body lib) 0) as (-> & _). cbn [fst].
    destruct (fst (served [] (lib_body lib))) as [|i]; reflexivity.
Qed.

Lemma filter_repeat o e n : filter (about o) (repeat e n) = if about o e then repeat e n else [].
Proof. destruct (about o e) eqn:E; induction n as [|n IH]; cbn [repeat filter]; try reflexivity; rewrite E; [f_equal|]; exact IH. Qed.
Lemma uses_cat o a b : repeat (Use o) a ++ repeat (Use o) b = repeat (Use o) (a + b).
Proof. rewrite repeat_app. reflexivity. Qed.
Lemma opj_clean : forall lib m buf, zlen buf < 2 ^ 63 -> forall o, (o = OUser -> lib_stream lib = true) -> clean o (fst (opj_decode lib m buf)).
Proof.
  intros lib m buf Hb o Ho. unfold opj_decode, clean. destruct (lib_stream lib) eqn:Es.
  - clear Ho. destruct (lib_codec lib); cbn [negb].
    2:{ destruct o; cbn; [right; exists 3%nat; reflexivity|right; exists 0%nat; reflexivity|left; reflexivity|left; reflexivity]. }
    destruct (lib_setup lib); cbn [negb].
    2:{ destruct o; cbn; [right; exists 3%nat; reflexivity|right; exists 0%nat; reflexivity|right; exists 1%nat; reflexivity|left; reflexivity]. }
    destruct (run_true _ m buf (lib_header lib) Hb 0 ltac:(unfold zlen; lia)) as (n & h & off & -> & Hf & _). destruct h as [im|].
    + cbn [fst]. destruct o, im; cbn; rewrite ?filter_app, ?filter_repeat; cbn; rewrite ?app_nil_r; first
        [ left; reflexivity | right; exists n; reflexivity | right; exists 4%nat; reflexivity | right; exists 2%nat; reflexivity | right; exists 0%nat; reflexivity ].
    + destruct (run_true _ m buf (lib_body lib) Hb off Hf) as (n' & b & off' & -> & _ & _). destruct b as [|i]; cbn [fst image_part].
      * destruct o; cbn; rewrite ?filter_app, ?filter_repeat; cbn; rewrite ?filter_app, ?filter_repeat; cbn; rewrite ?app_nil_r.
        -- right. exists 5%nat. reflexivity.
        -- right. exists (n + n')%nat. rewrite <- uses_cat, <- app_assoc. reflexivity.
        -- right. exists 3%nat. reflexivity.
        -- right. exists 1%nat. reflexivity.
      * destruct o; cbn; rewrite ?filter_app, ?filter_repeat; cbn; rewrite ?filter_app, ?filter_repeat; cbn; rewrite ?app_nil_r.
        -- right. exists 5%nat. reflexivity.
        -- right. exists (n + n')%nat. rewrite <- uses_cat, <- app_assoc. reflexivity.
        -- right. exists 3%nat. reflexivity.
        -- right. exists 2%nat. reflexivity.
  - assert (o <> OUser) by (intros ->; discriminate Ho; reflexivity). clear Ho.
    destruct (lib_codec lib); cbn [negb]; [|destruct o; try congruence; left; reflexivity].
    destruct (lib_setup lib); cbn [negb]; [|destruct o; try congruence; cbn; first [left; reflexivity|right; exists 1%nat; reflexivity]].
    destruct (run_false _ m buf (lib_header lib) 0) as (-> & _). destruct (fst (served [] (lib_header lib))) as [im|].
    + destruct o, im; try congruence; cbn; first [left; reflexivity|right; exists 2%nat; reflexivity|right; exists 0%nat; reflexivity].
    + destruct (run_false _ m buf (lib_body lib) 0) as (-> & _). destruct (fst (served [] (lib_body lib))) as [|i]; destruct o; try congruence; cbn;
        first [left; reflexivity|right; exists 3%nat; reflexivity|right; exists 2%nat; reflexivity|right; exists 1%nat; reflexivity].
Qed.
Lemma opj_leak : forall lib m buf, lib_stream lib = false -> leaked OUser (fst (opj_decode lib m buf)).
Proof.
  intros lib m buf Es. exists 0%nat. unfold opj_decode. rewrite Es. destruct (lib_codec lib); cbn [negb]; [|reflexivity]. destruct (lib_setup lib); cbn [negb]; [|reflexivity].
  destruct (run_false _ m buf (lib_header lib) 0) as (-> & _). destruct (fst (served [] (lib_header lib))) as [[]|]; [reflexivity|reflexivity|].
  destruct (run_false _ m buf (lib_body lib) 0) as (-> & _). destruct (fst (served [] (lib_body lib))) as [|i]; reflexivity.
Qed.
Lemma before_in : forall (A R pre post : list event) e x, A ++ R = pre ++ e :: post -> ~ In e A -> In x A -> In x pre.
Proof.
  induction A as [|a A IH]; intros R pre post e x E N H; [destruct H|]. destruct pre as [|p pre]; cbn [app] in E; injection E as E1 E2.
  - exfalso. apply N. left. congruence.
  - subst p. destruct H as [->|H]; [left; reflexivity|right]. apply (IH R pre post e x E2); [|exact H]. intros X. apply N. right. exact X.
Qed.
Lemma after_in (A R pre post : list event) e x : R ++ A = pre ++ e :: post -> ~ In e A -> In x A -> In x post.
Proof.
  intros E N H. apply (f_equal (@rev event)) in E. rewrite !rev_app_distr in E. cbn [rev] in E. rewrite <- app_assoc in E. cbn [app] in E.
  apply in_rev. apply (before_in (rev A) (rev R) (rev post) (rev pre) e x E); rewrite <- in_rev; assumption.
Qed.
Lemma within (A M C : list event) o o' : ~ In (Use o) A -> ~ In (Use o) C -> In (Create o') A -> In (Destroy o') C -> inside o o' (A ++ M ++ C).
Proof. intros NA NC HA HC pre post E. split; [eapply before_in; eauto|]. rewrite app_assoc in E. eapply after_in; eauto. Qed.
Ltac notin := let H := fresh in intros H; cbn in H; intuition discriminate.
Ltac isin := cbn; intuition auto.
Lemma opj_inside : forall lib m buf, zlen buf < 2 ^ 63 -> inside OUser OStream (fst (opj_decode lib m buf)).
Proof.
  intros lib m buf Hb. unfold opj_decode. destruct (lib_stream lib) eqn:Es.
  - destruct (lib_codec lib); cbn [negb fst].
    2:{ intros pre post E. exfalso. assert (In (Use OUser) (stream_from_bytes true ++ drop_stream true)) as X by (rewrite E; apply in_or_app; right; left; reflexivity). revert X. notin. }
    destruct (lib_setup lib); cbn [negb fst].
    2:{ intros pre post E. exfalso. assert (In (Use OUser) ((stream_from_bytes true ++ [Create OCodec; Use OCodec]) ++ drop_codec ++ drop_stream true)) as X by (rewrite E; apply in_or_app; right; left; reflexivity). revert X. notin. }
    destruct (run_true _ m buf (lib_header lib) Hb 0 ltac:(unfold zlen; lia)) as (n & h & off & -> & Hf & _). destruct h as [im|]; cbn [fst].
    + replace (((stream_from_bytes true ++ [Create OCodec; Use OCodec]) ++ use_stream true ++ [Use OCodec] ++ repeat (Use OUser) n) ++
        (if im then [Create OImage] else []) ++ drop_image im ++ drop_codec ++ drop_stream true) with
        ((stream_from_bytes true ++ [Create OCodec; Use OCodec] ++ use_stream true ++ [Use OCodec]) ++ repeat (Use OUser) n ++
         ((if im then [Create OImage] else []) ++ drop_image im ++ drop_codec ++ drop_stream true)) by (rewrite <- !app_assoc; reflexivity).
      apply within; destruct im; first [notin|isin].
    + destruct (run_true _ m buf (lib_body lib) Hb off Hf) as (n' & b & off' & -> & _ & _).
      assert (K : forall C, ~ In (Use OUser) C -> In (Destroy OStream) C -> inside OUser OStream
        ((((stream_from_bytes true ++ [Create OCodec; Use OCodec]) ++ use_stream true ++ [Use OCodec] ++ repeat (Use OUser) n) ++ [Create OImage] ++ [Use OCodec] ++ use_stream true ++ [Use OImage] ++ repeat (Use OUser) n') ++ C)).
      { intros C N H. replace ((((stream_from_bytes true ++ [Create OCodec; Use OCodec]) ++ use_stream true ++ [Use OCodec] ++ repeat (Use OUser) n) ++ [Create OImage] ++ [Use OCodec] ++ use_stream true ++ [Use OImage] ++ repeat (Use OUser) n') ++ C) with
          ((stream_from_bytes true ++ [Create OCodec; Use OCodec] ++ use_stream true ++ [Use OCodec]) ++ (repeat (Use OUser) n ++ [Create OImage] ++ [Use OCodec] ++ use_stream true ++ [Use OImage] ++ repeat (Use OUser) n') ++ C)
          by (rewrite <- !app_assoc; reflexivity).
        apply within; auto; first [notin|isin]. }
      destruct b as [|i]; cbn [fst image_part]; apply K; first [notin|isin].
  - assert (N : ~ In (Use OUser) (fst (opj_decode lib m buf))).
    { intros X. destruct (opj_leak lib m buf Es) as (k & L). assert (Y : In (Use OUser) (filter (about OUser) (fst (opj_decode lib m buf)))) by (apply filter_In; auto).
      unfold opj_decode in Y. rewrite Es in Y. revert Y. destruct (lib_codec lib); cbn [negb]; [|notin]. destruct (lib_setup lib); cbn [negb]; [|notin].
      destruct (run_false _ m buf (lib_header lib) 0) as (-> & _). destruct (fst (served [] (lib_header lib))) as [[]|]; [notin|notin|].
      destruct (run_false _ m buf (lib_body lib) 0) as (-> & _). destruct (fst (served [] (lib_body lib))) as [|i]; notin. }
    unfold opj_decode in N. rewrite Es in N. intros pre post E. exfalso. apply N. rewrite E. apply in_or_app. right. left. reflexivity.
Qed.
