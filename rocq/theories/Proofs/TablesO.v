(** The constants of the generated code: their order, and that none is there twice. *)
From Coq Require Import Lia Sorting.Sorted Strings.String.
From Verif Require Import Model.Base Model.Tools Model.Tables Spec.ToolsS Spec.TablesS Proofs.TablesP Proofs.TablesX.

Lemma key_before k k' : key_lt k k' <-> table_before k k'.
Proof.
  unfold key_lt, key_ltb, table_before, for_before. destruct k as [[s n] a], k' as [[s' n'] a'].
  destruct a as [|d|d c], a' as [|d'|d' c']; cbn; lia.
Qed.

Lemma load_sorted stem rs d d' : db_load stem rs d = Some d' -> StronglySorted key_lt (map fst d) -> StronglySorted key_lt (map fst d').
Proof.
  intros H F. destruct (db_load_cases stem rs d) as [(s & n & Nm)|[[_ E]|[_ E]]]; [|congruence|congruence].
  rewrite (db_load_name _ _ _ _ _ Nm) in H. destruct (parse_records [] rs) as [ts|]; [|discriminate]. injection H as <-.
  revert d F. induction ts as [|[x t] ts IH]; intros d F; [exact F|]. cbn [fold_left fst snd]. apply IH. now apply insert_sorted.
Qed.
Lemma load_all_sorted fs : forall d d', load_all fs (Some d) = Some d' -> StronglySorted key_lt (map fst d) -> StronglySorted key_lt (map fst d').
Proof.
  induction fs as [|[stem rs] fs IH]; intros d d' H F; [injection H as <-; exact F|]. rewrite load_all_cons in H. cbn [fst snd] in H.
  destruct (db_load stem rs d) as [d1|] eqn:E; [|rewrite load_all_none in H; discriminate]. exact (IH _ _ H (load_sorted _ _ _ _ E F)).
Qed.

Lemma cct_insert_in k t d x : In x (cct_insert k t d) -> x = (k, t) \/ In x d.
Proof.
  induction d as [|[k' t'] d IH]; cbn [cct_insert]; [intros [<-|[]]; auto|]. destruct (k <? k'); [intros [<-|I]; auto|].
  destruct (k' <? k); intros [<-|I]; cbn [In]; auto. destruct (IH I); auto.
Qed.
Lemma cct_insert_sorted k t (d : cct_db) : StronglySorted Z.lt (map fst d) -> StronglySorted Z.lt (map fst (cct_insert k t d)).
Proof.
  induction d as [|[k' t'] d IH]; intros S; cbn [cct_insert map fst]; [repeat constructor|].
  cbn [map fst] in S. apply StronglySorted_inv in S. destruct S as [S F]. destruct (k <? k') eqn:A.
  - apply Z.ltb_lt in A. cbn [map fst]. constructor; [constructor; assumption|]. constructor; [exact A|]. eapply Forall_impl; [|exact F].
    intros x Hx. cbn beta in Hx. lia.
  - destruct (k' <? k) eqn:B; cbn [map fst].
    + apply Z.ltb_lt in B. constructor; [exact (IH S)|]. apply Forall_forall. intros x I. apply in_map_iff in I. destruct I as (y & <- & I). apply cct_insert_in in I.
      destruct I as [->|I]; [exact B|]. rewrite Forall_forall in F. apply F. apply in_map. exact I.
    + assert (k' = k) by lia. subst k'. constructor; assumption.
Qed.
Lemma cct_sorted fs : forall d d', cct_all fs (Some d) = Some d' -> StronglySorted Z.lt (map fst d) -> StronglySorted Z.lt (map fst d').
Proof.
  induction fs as [|[stem rs] fs IH]; intros d d' H F; [injection H as <-; exact F|].
  change (cct_all ((stem, rs) :: fs) (Some d)) with (cct_all fs (cct_load stem rs d)) in H.
  destruct (cct_load stem rs d) as [d1|] eqn:E; [|rewrite cct_all_none in H; discriminate]. apply (IH _ _ H). unfold cct_load in E.
  destruct (bytes_dec stem (str "C00")) as [->|N0]; [|destruct (bytes_dec stem (str "C11")) as [->|N1]; [|injection E as <-; exact F]];
    (destruct (all_records rs) as [l|]; [|discriminate]; injection E as <-; now apply cct_insert_sorted).
Qed.
Lemma cct_names m : forall d cs, cct_constants m d = Ret cs -> map fst cs = map cct_variable_name (map fst d).
Proof.
  induction d as [|[k' t] d IH]; intros cs H; cbn [cct_constants] in H; [injection H as <-; reflexivity|].
  destruct (to_vec m (ct_rows t)) as [v| |]; try discriminate. cbn [bind] in H. destruct (cct_constants m d) as [cs'| |]; try discriminate. cbn [bind] in H.
  injection H as <-. cbn [map fst]. f_equal. now apply IH.
Qed.

Lemma build_order m ccts fs cs : build_tables m ccts fs = Some (Ret cs) -> exists cc ks,
  map fst cs = map cct_variable_name cc ++ map variable_name ks /\
  StronglySorted Z.lt cc /\ Forall (fun k => k = 0 \/ k = 11) cc /\
  StronglySorted table_before ks /\ Forall key_ok ks.
Proof.
  intros H. destruct (build_inv _ _ _ _ H) as (dc & d & ca & cb & A & B & C & D & ->). exists (map fst dc), (map fst d). repeat split.
  - rewrite map_app, (cct_names _ _ _ C), (constants_names _ _ _ D), !map_map. reflexivity.
  - apply (cct_sorted _ _ _ A). constructor.
  - assert (F := cct_keys _ _ _ A (Forall_nil _)). rewrite Forall_forall in *. intros x I. apply in_map_iff in I. destruct I as (y & <- & I). now apply F.
  - assert (S := load_all_sorted _ _ _ B (SSorted_nil _)). clear - S. induction S as [|k l S IH F]; constructor; [exact IH|].
    eapply Forall_impl; [|exact F]. intros k'. apply key_before.
  - apply (load_all_keys _ _ _ B). constructor.
Qed.

Lemma sorted_distinct {A B} (lt : A -> A -> Prop) (ok : A -> Prop) (f : A -> B) l :
  (forall x, ~ lt x x) -> (forall x y, ok x -> ok y -> f x = f y -> x = y) -> StronglySorted lt l -> Forall ok l -> NoDup (map f l).
Proof.
  intros Irr Inj S. induction S as [|k l S IH F]; intros K; cbn [map]; constructor; apply Forall_cons_iff in K; destruct K as [Kk K].
  - intros I. apply in_map_iff in I. destruct I as (y & E & I). rewrite Forall_forall in F, K.
    apply Inj in E; [|now apply K|exact Kk]. subst y. exact (Irr k (F k I)).
  - now apply IH.
Qed.
Lemma build_once m ccts fs cs : build_tables m ccts fs = Some (Ret cs) -> NoDup (map fst cs).
Proof.
  intros H. destruct (build_order _ _ _ _ H) as (cc & ks & -> & S1 & K1 & S2 & K2).
  assert (N1 : NoDup (map cct_variable_name cc)).
  { eapply sorted_distinct; [| |exact S1|exact K1]; [intros x; lia|]. intros x y [->| ->] [->| ->] E; try reflexivity; discriminate. }
  assert (N2 : NoDup (map variable_name ks)).
  { eapply sorted_distinct; [| |exact S2|exact K2]; [|exact name_inj]. intros [[s n] a]. unfold table_before, for_before. destruct a; lia. }
  revert N1. induction cc as [|k cc IH]; intros N1; [exact N2|]. cbn [map app] in *. apply NoDup_cons_iff in N1. destruct N1 as [Nk N1].
  apply StronglySorted_inv in S1. apply Forall_cons_iff in K1. constructor; [|apply IH; tauto]. intros I. apply in_app_or in I. destruct I as [I|I]; [tauto|].
  apply in_map_iff in I. destruct I as ([[s n] a] & E & _). unfold variable_name, cct_variable_name in E. cbn in E. discriminate.
Qed.

(** ** The tables that are there *)
Lemma get_in k (d : db) : In k (map fst d) <-> exists t, db_get k d = Some t.
Proof.
  induction d as [|[k' t] d IH]; cbn [map fst In db_get]; [split; [tauto|intros (t & E); discriminate]|].
  destruct (key_dec k k') as [->|N]; [split; eauto|]. rewrite <- IH. split; [intros [E|I]; congruence || exact I|auto].
Qed.
Lemma some_record a (rs : list csv_record) : (exists x, In x rs /\ is_for a x) \/ forall x, In x rs -> ~ is_for a x.
Proof.
  induction rs as [|x rs IH]; [right; intros x []|]. destruct IH as [(y & I & F)|N]; [left; exists y; split; [now right|exact F]|].
  destruct (parse_opt_arg (rec_subtitle x)) as [a'|] eqn:P.
  - destruct (opt_arg_dec a' a) as [->|D]; [left; exists x; split; [now left|apply subtitle_iff, P]|].
    right. intros y [<-|I]; [|now apply N]. intros F. apply subtitle_iff in F. congruence.
  - right. intros y [<-|I]; [|now apply N]. intros F. apply subtitle_iff in F. congruence.
Qed.
Lemma load_all_snoc fs f d : load_all (fs ++ [f]) d = match load_all fs d with Some d => db_load (fst f) (snd f) d | None => None end.
Proof. unfold load_all. now rewrite fold_left_app. Qed.
Lemma provided fs : forall d s n a t, load_all fs (Some []) = Some d -> db_get (s, n, a) d = Some t -> provides fs s n a t.
Proof.
  induction fs as [|[stem rs] fs IH] using rev_ind; intros d s n a t H G; [injection H as <-; discriminate|].
  rewrite load_all_snoc in H. destruct (load_all fs (Some [])) as [d1|] eqn:L; [|discriminate]. cbn [fst snd] in H.
  destruct (db_load_cases stem rs d1) as [(s' & n' & Nm)|[[_ E]|[NN E]]]; [|congruence|].
  - pose proof H as H'. rewrite (db_load_name _ _ _ _ _ Nm) in H'. destruct (parse_records [] rs) as [ts|] eqn:P; [|discriminate]. clear H'.
    destruct (records_inv _ _ _ P) as (rs' & -> & F). destruct (load_ok _ _ _ rs' d1 Nm F) as (d2 & E2 & Here & Same). rewrite H in E2. injection E2 as <-.
    assert (Else : (s', n') <> (s, n) \/ (forall x, In x rs' -> ~ is_for a x) -> provides (fs ++ [(stem, map Some rs')]) s n a t).
    { intros C. rewrite Same in G by (destruct C as [C|C]; [left; congruence|right; now apply Forall_forall]).
      destruct (IH d1 s n a t eq_refl G) as (before & stem0 & rs0 & after & r & block & -> & Nm0 & Lb & Et & Later).
      exists before, stem0, rs0, (after ++ [(stem, map Some rs')]), r, block. rewrite <- app_assoc. repeat split; try assumption.
      intros st rq x I Nq Ix Fx. apply in_app_or in I. destruct I as [I|[I|[]]]; [exact (Later st rq x I Nq Ix Fx)|]. injection I as <- <-.
      destruct C as [C|C]; [apply C; destruct (name_fun _ _ _ _ _ Nm Nq); congruence|].
      apply in_map_iff in Ix. destruct Ix as (y & E & Iy). injection E as ->. exact (C x Iy Fx). }
    destruct (Z.eq_dec s' s) as [->|]; [|apply Else; left; congruence]. destruct (Z.eq_dec n' n) as [->|]; [|apply Else; left; congruence].
    destruct (some_record a rs') as [Some_|None_]; [|apply Else; now right].
    destruct (block_exists a rs' Some_) as (r & block & Lb). rewrite (Here a r block Lb) in G. injection G as <-.
    exists fs, stem, rs', [], r, block. repeat split; try assumption. intros ? ? ? [].
  - rewrite H in E. injection E as ->.
    destruct (IH d1 s n a t eq_refl G) as (before & stem0 & rs0 & after & r & block & -> & Nm0 & Lb & Et & Later).
    exists before, stem0, rs0, (after ++ [(stem, rs)]), r, block. rewrite <- app_assoc. repeat split; try assumption.
    intros st rq x I Nq Ix Fx. apply in_app_or in I. destruct I as [I|[I|[]]]; [exact (Later st rq x I Nq Ix Fx)|]. injection I as <- <-.
    apply NN. exact (file_name_codeflag _ _ _ Nq).
Qed.
Lemma build_exactly m ccts fs cs : build_tables m ccts fs = Some (Ret cs) -> exists common tables,
  map fst cs = map cct_variable_name common ++ map variable_name tables /\
  StronglySorted Z.lt common /\ Forall (fun k => k = 0 \/ k = 11) common /\
  StronglySorted table_before tables /\ (forall s n a, In (s, n, a) tables <-> exists t, provides fs s n a t).
Proof.
  intros H. destruct (build_inv _ _ _ _ H) as (dc & d & ca & cb & A & B & C & D & ->). exists (map fst dc), (map fst d).
  assert (F := cct_keys _ _ _ A (Forall_nil _)). assert (S := load_all_sorted _ _ _ B (SSorted_nil _)). split; [|split; [|split; [|split]]].
  - rewrite map_app, (cct_names _ _ _ C), (constants_names _ _ _ D), !map_map. reflexivity.
  - apply (cct_sorted _ _ _ A). constructor.
  - rewrite Forall_forall in *. intros x I. apply in_map_iff in I. destruct I as (y & <- & I). now apply F.
  - clear - S. induction S as [|k l S IH F]; constructor; [exact IH|]. eapply Forall_impl; [|exact F]. intros k'. apply key_before.
  - intros s n a. rewrite get_in. split; intros (t & P); exists t; [exact (provided _ _ _ _ _ _ B P)|exact (load_all_provides _ _ _ _ _ _ B P)].
Qed.
