(** Programs with several iterators over one file. *)
From Coq Require Import Lia ZifyBool ZifyNat.
From Verif Require Import Model.Base Model.Errors Model.Sections Model.Reader Model.Parser Model.Context Model.Decoder Model.Session.
From Verif Require Import Spec.ReaderS Spec.ParserS Spec.ContextS Spec.SessionS.
From Verif Require Proofs.BoundX.
From Verif Require Import Proofs.BaseLemmas Proofs.ReaderP Proofs.ContextX Proofs.KeepP.

(** ** The reader is invisible *)
(** A computation on the reader whose result depends on the octets only, which it keeps. *)
Definition blind {A} (d : list byte) (f : src -> outcome (A * src)) : Prop :=
  exists x : outcome A, forall p sc, match x with
    | Ret a => exists p' sc', f (MkSrc d p sc) = Ret (a, MkSrc d p' sc')
    | Panic => f (MkSrc d p sc) = Panic
    | Diverge => f (MkSrc d p sc) = Diverge
    end.

Lemma arith_usize_range : forall m z p, arith m Usize z = Ret p -> 0 <= p < 2 ^ 64.
Proof.
  intros m z p E. unfold arith in E. destruct (in_range U64 z) eqn:R.
  - injection E as <-. apply in_range_spec in R. cbn in R. lia.
  - destruct m; [discriminate E|]. injection E as <-. rewrite wrap_unsigned by reflexivity. cbn [bits_of]. apply Z.mod_pos_bound. lia.
Qed.

Lemma reread_blind : forall m d x, blind d (fun s => reread m s x).
Proof.
  intros m d x. unfold blind, reread, read_sect_payload_as_slice, rbind, rpure, seek_to, read_slice, vec_alloc, rret.
  destruct (arith m Usize (s_offset x + 5)) as [o| |] eqn:Eo; cbn [bind]; [|exists Panic; reflexivity|exists Diverge; reflexivity].
  apply arith_usize_range in Eo. replace ((0 <=? o) && (o <? 2 ^ 64)) with true by lia.
  destruct (arith m Usize (s_size x - 5)) as [n| |] eqn:En; cbn [bind]; [|exists Panic; reflexivity|exists Diverge; reflexivity].
  apply arith_usize_range in En. destruct (n <=? 2 ^ 63 - 1); cbn [bind]; [|exists Panic; reflexivity].
  exists (Ret (if (n =? 0) || (o + n <=? zlen d) then Ok (octets d o n) else Err ReadErrorEof)).
  intros p sc. cbn [data sched]. cbn [bind].
  destruct (read_exact_spec n (MkSrc d o sc) ltac:(lia) ltac:(cbn [pos]; lia)) as (sc' & _ & E). cbn [data pos] in E.
  unfold rbind. cbn [bind]. rewrite E. destruct ((n =? 0) || (o + n <=? zlen d)); eauto.
Qed.

Lemma blind_ret : forall A d (a : A), blind d (fun s => Ret (a, s)).
Proof. intros. exists (Ret a). eauto. Qed.

Lemma blind_pure : forall A B d (e : outcome A) (k : A -> src -> outcome (B * src)), (forall a, blind d (k a)) -> blind d (fun s => let! a := e in k a s).
Proof. intros A B d [a| |] k H; cbn [bind]; [apply H|exists Panic; reflexivity|exists Diverge; reflexivity]. Qed.

Lemma blind_bind : forall A B d (e : src -> outcome (A * src)) (k : A -> src -> outcome (B * src)),
  blind d e -> (forall a, blind d (k a)) -> blind d (fun s => let! (a, s') := e s in k a s').
Proof.
  intros A B d e k (x & Hx) Hk. destruct x as [a| |].
  - destruct (Hk a) as (y & Hy). exists y. intros p sc. destruct (Hx p sc) as (p' & sc' & ->). cbn [bind]. apply Hy.
  - exists Panic. intros p sc. rewrite (Hx p sc). reflexivity.
  - exists Diverge. intros p sc. rewrite (Hx p sc). reflexivity.
Qed.

Lemma blind_try : forall A B E d (e : src -> outcome (result A E * src)) (k : A -> src -> outcome (result B E * src)),
  blind d e -> (forall a, blind d (k a)) -> blind d (fun s => try_src (e s) k).
Proof.
  intros A B E d e k He Hk. unfold try_src.
  apply (blind_bind _ _ d e (fun r s => match r with Ok a => k a s | Err x => Ret (Err x, s) end)); [exact He|].
  intros [a|x]; [apply Hk|apply blind_ret].
Qed.

Lemma grib_blind : forall m d x, blind d (fun s => reread_grib m s x).
Proof.
  intros. unfold reread_grib.
  apply (blind_bind _ _ d (fun s => reread m s x) (fun r s => Ret (match r with Ok l => Ok l | Err e => Err (EParse e) end, s))); [apply reread_blind|].
  intros. apply blind_ret.
Qed.

Lemma decoder_blind : forall m d v, blind d (fun s => decoder_from m s v).
Proof.
  intros m d v. unfold decoder_from. destruct (s_body (snd (u_3 v))) as [[| | |p3| | | |]|]; try apply blind_ret.
  destruct (s_body (snd (u_5 v))) as [[| | | | |p5| |]|]; try apply blind_ret.
  destruct (s_body (snd (u_6 v))) as [[| | | | | |i|]|]; try apply blind_ret.
  apply blind_pure. intros total. 
  apply (blind_try _ _ _ d (fun s => decoder_bitmap m s (snd (u_6 v)) i total)).
  - unfold decoder_bitmap. destruct (i =? 0); [|destruct (i =? 255); apply blind_ret].
    apply (blind_try _ _ _ d (fun s => reread_grib m s (snd (u_6 v)))); [apply grib_blind|].
    intros l. apply blind_pure. intros. apply blind_ret.
  - intros bm. apply blind_pure. intros enc. apply blind_pure. intros tm.
    apply (blind_try _ _ _ d (fun s => reread_grib m s (snd (u_5 v)))); [apply grib_blind|]. intros s5.
    apply (blind_try _ _ _ d (fun s => reread_grib m s (snd (u_7 v)))); [apply grib_blind|]. intros s7. apply blind_ret.
Qed.

(** C65 *)
Lemma decode_history : forall m d v s, data s = d ->
  match decoded_alone m d v with
  | Ret r => exists s', decoder_from m s v = Ret (r, s') /\ data s' = d
  | Panic => decoder_from m s v = Panic
  | Diverge => decoder_from m s v = Diverge
  end.
Proof.
  intros m d v [d' p sc] E. cbn [data] in E. subst d'. destruct (decoder_blind m d v) as (x & Hx).
  unfold decoded_alone, cursor. pose proof (Hx 0 []) as H0. pose proof (Hx p sc) as H1. destruct x as [r| |].
  - destruct H0 as (p0 & sc0 & ->). cbn [bind]. destruct H1 as (p1 & sc1 & ->). eexists. split; [reflexivity|]. reflexivity.
  - rewrite H0. exact H1.
  - rewrite H0. exact H1.
Qed.

(** ** Sessions *)
Lemma set_nth_map : forall A B (f : A -> B) n x l, set_nth n (f x) (map f l) = map f (set_nth n x l).
Proof. intros A B f n x l. revert n. induction l as [|y l IH]; intros [|n]; cbn [set_nth map]; try reflexivity. now rewrite IH. Qed.
Lemma set_nth_same : forall A n (x : A) l, nth_error l n = Some x -> set_nth n x l = l.
Proof. intros A n x l. revert n. induction l as [|y l IH]; intros [|n] H; cbn in *; try discriminate; [congruence|]. now rewrite IH. Qed.
Lemma set_nth_length : forall A n (x : A) l, length (set_nth n x l) = length l.
Proof. intros A n x l. revert n. induction l as [|y l IH]; intros [|n]; cbn; try reflexivity. now rewrite IH. Qed.
Lemma nth_set_eq : forall A n (x y : A) l, nth_error l n = Some y -> nth_error (set_nth n x l) n = Some x.
Proof. intros A n x y l. revert n. induction l as [|z l IH]; intros [|n] H; cbn in *; try discriminate; auto. Qed.
Lemma nth_set_ne : forall A n k (x : A) l, n <> k -> nth_error (set_nth n x l) k = nth_error l k.
Proof. intros A n k x l. revert n k. induction l as [|z l IH]; intros [|n] [|k] H; cbn; try reflexivity; try congruence. apply IH. congruence. Qed.

(** At most one submessage is alive. *)
Definition one_alive (got : list (option view)) : Prop :=
  forall i j v w, nth_error got i = Some (Some v) -> nth_error got j = Some (Some w) -> i = j.

Lemma none_alive : forall got, existsb alive got = false <-> forall i v, nth_error got i <> Some (Some v).
Proof.
  intros got. split.
  - intros H i v E. apply nth_error_In in E. assert (existsb alive got = true) by (apply existsb_exists; exists (Some v); auto). congruence.
  - intros H. destruct (existsb alive got) eqn:E; [|reflexivity]. apply existsb_exists in E. destruct E as ([v|] & I & A); [|discriminate A].
    apply In_nth_error in I. destruct I as (i & I). destruct (H i v I).
Qed.
Lemma released : forall got i v, one_alive got -> nth_error got i = Some (Some v) -> existsb alive (set_nth i None got) = false.
Proof.
  intros got i v H E. apply none_alive. intros j w Ej. destruct (Nat.eq_dec i j) as [<-|N].
  - rewrite (nth_set_eq _ _ _ _ _ E) in Ej. discriminate.
  - rewrite nth_set_ne in Ej by assumption. exact (N (H _ _ _ _ E Ej)).
Qed.
Lemma one_none : forall got, existsb alive got = false -> one_alive got.
Proof. intros got H i j v w E. destruct (proj1 (none_alive got) H i v E). Qed.
Lemma one_more : forall got v, existsb alive got = false -> one_alive (got ++ [Some v]) /\ existsb alive (got ++ [Some v]) = true.
Proof.
  intros got v H. split.
  - intros i j x y Ei Ej. rewrite none_alive in H.
    assert (P : forall k z, nth_error (got ++ [Some v]) k = Some (Some z) -> k = length got).
    { intros k z Ek. destruct (lt_dec k (length got)) as [L|L].
      - rewrite nth_error_app1 in Ek by exact L. destruct (H k z Ek).
      - rewrite nth_error_app2 in Ek by lia. destruct (k - length got)%nat eqn:D; [lia|]. cbn in Ek. destruct n; discriminate. }
    rewrite (P _ _ Ei), (P _ _ Ej). reflexivity.
  - rewrite existsb_app. cbn. now rewrite Bool.orb_true_r.
Qed.

Section Program.
  Context (g : grib2) (vs : list view) (Hv : all_views g vs) (Hc : zlen vs < 2 ^ 64) (m : mode) (d : list byte).

  Record fits (s : session) (its : list nat) (got : list (option view)) : Prop := {
    f_data : data (se_src s) = d;
    f_flag : se_borrowed s = existsb alive got;
    f_its : se_its s = map Z.of_nat its;
    f_small : Forall (fun p => Z.of_nat p < 2 ^ 64) its;
    f_views : se_views s = got;
    f_one : one_alive got }.

  Lemma small_set : forall k p its, Z.of_nat p < 2 ^ 64 -> Forall (fun p => Z.of_nat p < 2 ^ 64) its -> Forall (fun p => Z.of_nat p < 2 ^ 64) (set_nth k p its).
  Proof. intros k p its Hp H. revert k. induction H; intros [|k]; cbn [set_nth]; constructor; auto. Qed.

  Lemma program : forall ops s its got, Forall op_ok ops -> fits s its got ->
    se_run m g s ops = expected m vs (decoded_alone m d) its got ops.
  Proof.
    induction ops as [|o ops IH]; intros s its got Ho F; [reflexivity|].
    inversion Ho as [|? ? Ho1 Ho2]; subst. specialize (fun s its got => IH s its got Ho2).
    destruct F as [Fd Ff Fi Fs Fv Fo].
    assert (Same : fits s its got) by (constructor; assumption).
    assert (Item : forall k p n, nth_error its k = Some p -> Z.of_nat n < 2 ^ 64 ->
      (let! (a, s') := (let! r := sub_iter_next g (Z.of_nat n) (se_borrowed s) in Ret (se_obtained s k r)) in
       let! l := se_run m g s' ops in Ret (a :: l)) =
      match nth_error vs n with
      | None => let! l := expected m vs (decoded_alone m d) (set_nth k n its) got ops in Ret (AView None :: l)
      | Some v => if existsb alive got then Panic
                  else let! l := expected m vs (decoded_alone m d) (set_nth k (S n) its) (got ++ [Some v]) ops in Ret (AView (Some v) :: l)
      end).
    { intros k p n Ek Hn. rewrite (next_at g vs n _ Hv), Ff. destruct (nth_error vs n) as [v|] eqn:En.
      - destruct (existsb alive got) eqn:Ea; cbn [bind se_obtained]; [reflexivity|].
        destruct (one_more got v Ea) as (O1 & O2). assert (n < length vs)%nat by (apply nth_error_Some; congruence).
        erewrite IH; [reflexivity|]. constructor; cbn [se_src se_borrowed se_its se_views]; auto.
        + rewrite Fi. apply set_nth_map.
        + apply small_set; [unfold zlen in Hc; lia|exact Fs].
        + now rewrite Fv.
      - cbn [bind se_obtained]. erewrite IH; [reflexivity|]. constructor; cbn [se_src se_borrowed se_its se_views]; auto.
        + rewrite Fi. apply set_nth_map.
        + apply small_set; assumption. }
    assert (Hi : forall k, nth_error (se_its s) k = option_map Z.of_nat (nth_error its k)) by (intros; rewrite Fi; apply nth_error_map).
    destruct o as [|k|k|k n|k|i|i]; cbn [se_run expected se_step].
    - cbn [bind]. erewrite IH; [reflexivity|]. constructor; cbn [se_src se_borrowed se_its se_views]; auto.
      + rewrite Fi, map_app. reflexivity.
      + apply Forall_app. split; [exact Fs|repeat constructor].
    - rewrite Hi. destruct (nth_error its k) as [p|] eqn:Ek; cbn [option_map bind]; (erewrite IH; [reflexivity|]); [|exact Same].
      constructor; cbn [se_src se_borrowed se_its se_views]; auto.
      + rewrite Fi, map_app. reflexivity.
      + apply Forall_app. split; [exact Fs|]. constructor; [|constructor]. rewrite Forall_forall in Fs. apply Fs. eapply nth_error_In. exact Ek.
    - rewrite Hi. destruct (nth_error its k) as [p|] eqn:Ek; cbn [option_map].
      + apply (Item k p p Ek). rewrite Forall_forall in Fs. apply Fs. eapply nth_error_In. exact Ek.
      + cbn [bind]. erewrite IH; [reflexivity|exact Same].
    - rewrite Hi. destruct (nth_error its k) as [p|] eqn:Ek; cbn [option_map].
      + unfold sub_iter_nth. cbn [op_ok] in Ho1. rewrite <- (Z2Nat.id n) at 1 by lia. apply (Item k p (Z.to_nat n) Ek). lia.
      + cbn [bind]. erewrite IH; [reflexivity|exact Same].
    - rewrite Hi. destruct (nth_error its k) as [p|] eqn:Ek; cbn [option_map].
      + assert (Hp : Z.of_nat p < 2 ^ 64) by (rewrite Forall_forall in Fs; apply Fs; eapply nth_error_In; exact Ek).
        assert (El : g_len g = zlen vs) by (unfold g_len, zlen; rewrite (count_subs g vs Hv); reflexivity).
        rewrite (size_all m g (Z.of_nat p)) by (rewrite ?El; lia). rewrite El.
        destruct (Z.of_nat p <=? zlen vs); cbn [bind].
        * erewrite IH; [reflexivity|exact Same].
        * destruct m; cbn [bind]; [reflexivity|]. erewrite IH; [reflexivity|exact Same].
      + cbn [bind]. erewrite IH; [reflexivity|exact Same].
    - rewrite Fv. destruct (nth_error got i) as [[v|]|] eqn:Ei; cbn [bind]; (erewrite IH; [reflexivity|]); try exact Same.
      pose proof (released got i v Fo Ei) as R. constructor; cbn [se_release se_src se_borrowed se_its se_views]; auto.
      + now rewrite Fv.
      + now apply one_none.
    - rewrite Fv. destruct (nth_error got i) as [[v|]|] eqn:Ei; try (cbn [bind]; (erewrite IH; [reflexivity|exact Same])).
      pose proof (released got i v Fo Ei) as R. pose proof (decode_history m d v (se_src s) Fd) as D.
      destruct (decoded_alone m d v) as [r| |] eqn:Er; cbn [bind].
      + destruct D as (s' & -> & Ds). cbn [bind]. erewrite IH; [reflexivity|]. constructor; cbn [se_release se_src se_borrowed se_its se_views]; auto.
        * now rewrite Fv.
        * now apply one_none.
      + rewrite D. reflexivity.
      + rewrite D. reflexivity.
  Qed.
End Program.

(** C63 *)
Lemma session : forall m fuel s g, grib2_read m fuel s = Ret (Ok g) -> zlen (data s) < 2 ^ 63 -> 0 <= pos s <= zlen (data s) ->
  exists ms us vs, Forall wf_message ms /\ g_sections g = flat_map message_sections ms /\ submessages_of_all 0 ms us /\
    Forall2 (shows (g_sections g)) us vs /\ zlen vs = g_len g /\
    (forall m' ops, Forall op_ok ops ->
     se_run m' g (se_start g) ops = expected m' vs (decoded_alone m' (data s)) [] [] ops).
Proof.
  intros m fuel s g E Hl Hp. destruct (views m fuel s g E Hl ltac:(lia)) as (ms & us & vs & A & B & C & D & F).
  pose proof (BoundX.len_bound m fuel s g E Hl Hp) as Hc.
  exists ms, us, vs. split; [exact A|]. split; [exact B|]. split; [exact C|]. split; [exact D|].
  assert (El : zlen vs = g_len g) by (unfold g_len, zlen; now rewrite (count_subs g vs F)). split; [exact El|].
  intros m' ops Ho. apply (program g vs F ltac:(lia) m' (data s) ops); [exact Ho|].
  constructor; cbn [se_start se_src se_borrowed se_its se_views]; auto.
  - exact (reader_data m fuel s g E Hl ltac:(lia)).
  - intros i j v w H. destruct i; discriminate H.
Qed.

(** ** Iterators do not disturb each other *)
Section Alone.
  Context (m : mode) (vs : list view) (dec : view -> outcome (result decoder grib_error)).

  (** What one operation does, and the rest. *)
  Lemma expected_cons : forall o ops its got l, expected m vs dec its got (o :: ops) = Ret l ->
    exists a got' l', l = a :: l' /\ expected m vs dec (places vs its [o]) got' ops = Ret l' /\
      forall k p, own k o = true -> nth_error its k = Some p -> [a] = alone vs p [o].
  Proof.
    intros o ops its got l E.
    assert (T : forall a its' got', (let! l := expected m vs dec its' got' ops in Ret (a :: l)) = Ret l ->
      exists l', l = a :: l' /\ expected m vs dec its' got' ops = Ret l').
    { intros a its' got' H. destruct (expected m vs dec its' got' ops) as [l'| |]; cbn [bind] in H; try discriminate H. injection H as <-. eauto. }
    destruct o as [|k|k|k n|k|i|i]; cbn [expected] in E; cbn [places own].
    - apply T in E. destruct E as (l' & -> & E). exists ADone, got, l'. repeat split; try exact E. intros; discriminate.
    - destruct (nth_error its k); apply T in E; destruct E as (l' & -> & E); exists ADone, got, l'; (repeat split; try exact E; intros; discriminate).
    - destruct (nth_error its k) as [p|] eqn:Ek.
      + destruct (nth_error vs p) as [v|] eqn:Ev.
        * destruct (existsb alive got); [discriminate E|]. apply T in E. destruct E as (l' & -> & E). do 3 eexists. split; [reflexivity|]. split; [exact E|].
          intros k' p' O P. apply Nat.eqb_eq in O. subst k'. rewrite Ek in P. injection P as <-. cbn [alone]. now rewrite Ev.
        * apply T in E. destruct E as (l' & -> & E). do 3 eexists. split; [reflexivity|]. split; [exact E|].
          intros k' p' O P. apply Nat.eqb_eq in O. subst k'. rewrite Ek in P. injection P as <-. cbn [alone]. now rewrite Ev.
      + apply T in E. destruct E as (l' & -> & E). do 3 eexists. split; [reflexivity|]. split; [exact E|].
        intros k' p' O P. apply Nat.eqb_eq in O. subst k'. congruence.
    - destruct (nth_error its k) as [p|] eqn:Ek.
      + destruct (nth_error vs (Z.to_nat n)) as [v|] eqn:Ev.
        * destruct (existsb alive got); [discriminate E|]. apply T in E. destruct E as (l' & -> & E). do 3 eexists. split; [reflexivity|]. split; [exact E|].
          intros k' p' O P. cbn [alone]. now rewrite Ev.
        * apply T in E. destruct E as (l' & -> & E). do 3 eexists. split; [reflexivity|]. split; [exact E|].
          intros k' p' O P. cbn [alone]. now rewrite Ev.
      + apply T in E. destruct E as (l' & -> & E). do 3 eexists. split; [reflexivity|]. split; [exact E|].
        intros k' p' O P. apply Nat.eqb_eq in O. subst k'. congruence.
    - destruct (nth_error its k) as [p|] eqn:Ek.
      + destruct (Z.of_nat p <=? zlen vs) eqn:Ev.
        * apply T in E. destruct E as (l' & -> & E). do 3 eexists. split; [reflexivity|]. split; [exact E|].
          intros k' p' O P. apply Nat.eqb_eq in O. subst k'. rewrite Ek in P. injection P as <-. cbn [alone]. now rewrite Ev.
        * destruct m; [discriminate E|]. apply T in E. destruct E as (l' & -> & E). do 3 eexists. split; [reflexivity|]. split; [exact E|].
          intros k' p' O P. apply Nat.eqb_eq in O. subst k'. rewrite Ek in P. injection P as <-. cbn [alone]. now rewrite Ev.
      + apply T in E. destruct E as (l' & -> & E). do 3 eexists. split; [reflexivity|]. split; [exact E|].
        intros k' p' O P. apply Nat.eqb_eq in O. subst k'. congruence.
    - destruct (nth_error got i) as [[v|]|]; apply T in E; destruct E as (l' & -> & E); do 3 eexists; (split; [reflexivity|]; split; [exact E|]; intros; discriminate).
    - destruct (nth_error got i) as [[v|]|]; [destruct (dec v) as [r| |]; cbn [bind] in E; try discriminate E| |];
      (apply T in E; destruct E as (l' & -> & E); do 3 eexists; (split; [reflexivity|]; split; [exact E|]; intros; discriminate)).
  Qed.

  (** Where the iterator [k] stands after one operation. *)
  Lemma places_one : forall o its k p, nth_error its k = Some p ->
    exists p', nth_error (places vs its [o]) k = Some p' /\
      forall ops, (if own k o then alone vs p (o :: ops) = alone vs p [o] ++ alone vs p' ops else p' = p).
  Proof.
    intros o its k p E.
    assert (L : (k < length its)%nat) by (apply nth_error_Some; congruence).
    assert (A : forall x, nth_error (its ++ [x]) k = Some p) by (intros; rewrite nth_error_app1 by exact L; exact E).
    destruct o as [|k'|k'|k' n|k'|i|i]; cbn [places own]; try (exists p; split; [now auto|intros; reflexivity]).
    - destruct (nth_error its k') as [q|]; exists p; (split; [now auto|reflexivity]).
    - destruct (Nat.eqb_spec k k') as [<-|N].
      + rewrite E. eexists. split; [eapply nth_set_eq; exact E|]. intros ops. cbn [alone]. reflexivity.
      + destruct (nth_error its k') as [q|]; exists p; (split; [|reflexivity]); [rewrite nth_set_ne by congruence|]; exact E.
    - destruct (Nat.eqb_spec k k') as [<-|N].
      + rewrite E. eexists. split; [eapply nth_set_eq; exact E|]. intros ops. cbn [alone]. reflexivity.
      + destruct (nth_error its k') as [q|]; exists p; (split; [|reflexivity]); [rewrite nth_set_ne by congruence|]; exact E.
    - exists p. split; [exact E|]. intros ops. destruct (Nat.eqb k k'); reflexivity.
  Qed.

  Lemma places_cons : forall o its ops, places vs its (o :: ops) = places vs (places vs its [o]) ops.
  Proof. intros [|k|k|k n|k|i|i] its ops; reflexivity. Qed.

  Lemma alone_run : forall ops its got l k p, expected m vs dec its got ops = Ret l -> nth_error its k = Some p ->
    answers_of k ops l = alone vs p (filter (own k) ops).
  Proof.
    induction ops as [|o ops IH]; intros its got l k p E Ek; [reflexivity|].
    apply expected_cons in E. destruct E as (a & got' & l' & -> & E & H).
    destruct (places_one o its k p Ek) as (p' & Ep & Hp). cbn [answers_of filter].
    destruct (own k o) eqn:O.
    - rewrite (Hp (filter (own k) ops)), <- (H k p O Ek). cbn [app]. f_equal. eapply IH; eassumption.
    - specialize (Hp []). subst p'. eapply IH; eassumption.
  Qed.

  Lemma expected_app : forall pre post its got l, expected m vs dec its got (pre ++ post) = Ret l ->
    exists got' l', l = firstn (length pre) l ++ l' /\ skipn (length pre) l = l' /\ expected m vs dec (places vs its pre) got' post = Ret l'.
  Proof.
    induction pre as [|o pre IH]; intros post its got l E.
    - exists got, l. auto.
    - cbn [app] in E. apply expected_cons in E. destruct E as (a & got' & l' & -> & E & _).
      apply IH in E. destruct E as (got2 & l2 & A & B & C). rewrite places_cons. exists got2, l2. cbn [length firstn skipn app].
      split; [congruence|]. auto.
  Qed.
End Alone.

(** C64 *)
Lemma no_interference : forall m fuel s g, grib2_read m fuel s = Ret (Ok g) -> zlen (data s) < 2 ^ 63 -> 0 <= pos s <= zlen (data s) ->
  exists ms us vs, Forall wf_message ms /\ g_sections g = flat_map message_sections ms /\ submessages_of_all 0 ms us /\
    Forall2 (shows (g_sections g)) us vs /\ zlen vs = g_len g /\
    (forall m' pre post l, Forall op_ok (pre ++ post) ->
     se_run m' g (se_start g) (pre ++ post) = Ret l ->
     forall k p, nth_error (places vs [] pre) k = Some p ->
       answers_of k post (skipn (length pre) l) = alone vs p (filter (own k) post)).
Proof.
  intros m fuel s g E Hl Hp. destruct (session m fuel s g E Hl Hp) as (ms & us & vs & A & B & C & D & L & F).
  exists ms, us, vs. split; [exact A|]. split; [exact B|]. split; [exact C|]. split; [exact D|]. split; [exact L|].
  intros m' pre post l Ho R k p Ek. rewrite (F m' _ Ho) in R.
  apply expected_app in R. destruct R as (got & l' & _ & -> & R). exact (alone_run _ _ _ _ _ _ _ _ _ R Ek).
Qed.
