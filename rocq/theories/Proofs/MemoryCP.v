(** Complex packing with room for a limited number of items: relations between iterators. *)
From Coq Require Import Lia ZifyBool ZifyNat.
From Verif Require Import Model.Base Model.Helpers Model.Errors Model.F32 Model.Stream Model.Diff Model.Complex Model.Bitmap Model.Simple Model.Decoder Model.MemoryC.
From Verif Require Import Proofs.BaseLemmas Proofs.NearP.
Ltac Zify.zify_post_hook ::= Z.div_mod_to_equations.

(** [dispatch] over any complex packing. *)
Section With.
  Variable cpk : complex_param -> list byte -> Z -> Z -> Z -> outcome (iter dv).
  Variables (c : codecs) (m : mode).
  Definition decode_7_2_with (sect5 sect7 : list byte) : outcome (result (iter f32) grib_error) :=
    let! b := slice sect5 6 16 in
    try! sp := simple_param_from_buf m b in
    let! b := slice sect5 16 42 in
    let! cp := complex_param_from_buf b in
    if complex_unsupported cp then Ret (Err (EDecode (ComplexPackingError ComplexNotSupported)))
    else let! it := cpk cp sect7 0 (sp_nbit sp) 0 in Ret (Ok (simple_iter dv_to_f32 sp it)).
  Definition decode_7_3_with (sect5 sect7 : list byte) : outcome (result (iter f32) grib_error) :=
    let! b := slice sect5 6 16 in
    try! sp := simple_param_from_buf m b in
    let! b := slice sect5 16 42 in
    let! cp := complex_param_from_buf b in
    let! order := read_u8 sect5 42 in
    match table5_6_of order with
    | None => Ret (Err NotSupported)
    | Some order =>
        let! octets := read_u8 sect5 43 in
        if complex_unsupported cp || match order with Missing56 => true | _ => false end
        then Ret (Err (EDecode (ComplexPackingError ComplexNotSupported)))
        else
          try! d := spdiff_new m sect7 (table5_6_code order) octets in
          let! z_min := spdiff_minimum m d in
          let! it := cpk cp sect7 (spdiff_len d) (sp_nbit sp) z_min in
          let! first := collect_first_values m d in
          match order with
          | FirstOrder => Ret (Ok (simple_iter dv_to_f32 sp (diff1_iter m it first)))
          | SecondOrder => Ret (Ok (simple_iter dv_to_f32 sp (diff2_iter m it first)))
          | Missing56 => Panic
          end
    end.
  Definition values_with (d : decoder) : outcome (result (iter f32) grib_error) :=
    if d_template d =? 2 then decode_7_2_with (d_sect5 d) (d_sect7 d)
    else if d_template d =? 3 then decode_7_3_with (d_sect5 d) (d_sect7 d)
    else template_values c m d.
  Definition dispatch_with (d : decoder) : outcome (result (iter f32) grib_error) :=
    try! values := values_with d in
    match bitmap_iter f32_nan (d_bitmap d) values (d_total d) with
    | Some it => Ret (Ok it)
    | None => Ret (Err (EDecode LengthMismatch))
    end.
End With.
Lemma mem_with left c m d : mem_dispatch left c m d = dispatch_with (mem_complex_packing left m) c m d.
Proof. reflexivity. Qed.

Lemma with_72 m a b : decode_7_2 m a b = decode_7_2_with (decode_complex_packing m) m a b.
Proof.
  unfold decode_7_2, decode_7_2_ints, decode_7_2_with. destruct (slice a 6 16) as [b1| |]; cbn [bind]; try reflexivity.
  destruct (simple_param_from_buf m b1) as [[sp|e]| |]; cbn [bind]; try reflexivity. destruct (slice a 16 42) as [b2| |]; cbn [bind]; try reflexivity.
  destruct (complex_param_from_buf b2) as [cp| |]; cbn [bind]; try reflexivity. destruct (complex_unsupported cp); [reflexivity|].
  destruct (decode_complex_packing m cp b 0 (sp_nbit sp) 0) as [it| |]; reflexivity.
Qed.
Lemma with_73 m a b : decode_7_3 m a b = decode_7_3_with (decode_complex_packing m) m a b.
Proof.
  unfold decode_7_3, decode_7_3_ints, decode_7_3_with. destruct (slice a 6 16) as [b1| |]; cbn [bind]; try reflexivity.
  destruct (simple_param_from_buf m b1) as [[sp|e]| |]; cbn [bind]; try reflexivity. destruct (slice a 16 42) as [b2| |]; cbn [bind]; try reflexivity.
  destruct (complex_param_from_buf b2) as [cp| |]; cbn [bind]; try reflexivity. destruct (read_u8 a 42) as [o| |]; cbn [bind]; try reflexivity.
  destruct (table5_6_of o) as [t|]; [|reflexivity]. destruct (read_u8 a 43) as [k| |]; cbn [bind]; try reflexivity. destruct (_ || _); [reflexivity|].
  destruct (spdiff_new m b (table5_6_code t) k) as [[d|e]| |]; cbn [bind]; try reflexivity. destruct (spdiff_minimum m d) as [z| |]; cbn [bind]; try reflexivity.
  destruct (decode_complex_packing m cp b (spdiff_len d) (sp_nbit sp) z) as [it| |]; cbn [bind]; try reflexivity. destruct (collect_first_values m d) as [f| |]; cbn [bind]; try reflexivity.
  destruct t; reflexivity.
Qed.
Lemma values_eq c m d : template_values c m d = values_with (decode_complex_packing m) c m d.
Proof.
  unfold values_with. destruct (Z.eqb_spec (d_template d) 2) as [E|E]; [unfold template_values; rewrite E; apply with_72|].
  destruct (Z.eqb_spec (d_template d) 3) as [E3|E3]; [unfold template_values; rewrite E3; apply with_73|]. reflexivity.
Qed.
Lemma dispatch_eq c m d : dispatch c m d = dispatch_with (decode_complex_packing m) c m d.
Proof. unfold dispatch, dispatch_with. rewrite values_eq. reflexivity. Qed.

(** ** Relations that pass through the layers of iterators *)
Definition rel := forall A : Type, iter A -> iter A -> Prop.
Record closed (R : rel) : Prop := {
  cl_refl : forall A (it : iter A), R A it it;
  cl_map : forall A B (h : A -> outcome B) it1 it2, R A it1 it2 -> R B (imap h it1) (imap h it2);
  cl_diff1 : forall m it1 it2 l, R dv it1 it2 -> R dv (diff1_iter m it1 l) (diff1_iter m it2 l);
  cl_diff2 : forall m it1 it2 l, R dv it1 it2 -> R dv (diff2_iter m it1 l) (diff2_iter m it2 l);
  cl_bitmap : forall (it1 it2 : iter f32) bm len, R f32 it1 it2 ->
    R f32 (MkIter (bitmap_state (ist it1)) (BM bm (icur it1) len 0) (bitmap_next f32_nan (ist it1) (istep it1)))
          (MkIter (bitmap_state (ist it2)) (BM bm (icur it2) len 0) (bitmap_next f32_nan (ist it2) (istep it2))) }.
Definition oeq {A} (R : A -> A -> Prop) (x y : outcome A) : Prop :=
  match x with Ret a => exists b, y = Ret b /\ R a b | z => y = z end.
Definition req {A E} (R : A -> A -> Prop) (x y : result A E) : Prop :=
  match x with Ok a => exists b, y = Ok b /\ R a b | Err e => y = Err e end.
Lemma oeq_bind {A B} (R : A -> A -> Prop) (Q : B -> B -> Prop) x y f g : oeq R x y -> (forall a b, R a b -> oeq Q (f a) (g b)) -> oeq Q (bind x f) (bind y g).
Proof. destruct x as [a| |]; cbn [oeq]; [intros (b & -> & H) K; cbn [bind]; apply K, H|intros ->; reflexivity|intros ->; reflexivity]. Qed.
Lemma oeq_same {A B} (Q : B -> B -> Prop) (x : outcome A) f g : (forall a, oeq Q (f a) (g a)) -> oeq Q (bind x f) (bind x g).
Proof. intros H. destruct x; cbn [bind oeq]; auto. Qed.
Lemma oeq_err {A E} (R : A -> A -> Prop) (e : E) : oeq (req R) (Ret (Err e)) (Ret (Err e)).
Proof. eexists. split; reflexivity. Qed.
Lemma oeq_ok {A E} (R : A -> A -> Prop) a b : R a b -> oeq (@req A E R) (Ret (Ok a)) (Ret (Ok b)).
Proof. intros H. eexists. split; [reflexivity|]. exists b. auto. Qed.

(** What complex packing is called with. *)
Definition used (m : mode) (d : decoder) (cp : complex_param) (o n : Z) : Prop :=
  (exists b sp, slice (d_sect5 d) 6 16 = Ret b /\ simple_param_from_buf m b = Ret (Ok sp) /\ n = sp_nbit sp) /\
  exists b, slice (d_sect5 d) 16 42 = Ret b /\ complex_param_from_buf b = Ret cp /\
  ((d_template d = 2 /\ o = 0) \/
   (d_template d = 3 /\ exists i t k sd, read_u8 (d_sect5 d) 42 = Ret i /\ table5_6_of i = Some t /\ t <> Missing56 /\ read_u8 (d_sect5 d) 43 = Ret k /\
      spdiff_new m (d_sect7 d) (table5_6_code t) k = Ret (Ok sd) /\ o = spdiff_len sd)).
Lemma oeq_same' {A B} (Q : B -> B -> Prop) (x : outcome A) f g : (forall a, x = Ret a -> oeq Q (f a) (g a)) -> oeq Q (bind x f) (bind x g).
Proof. intros H. destruct x; cbn [bind oeq]; auto. Qed.

Lemma closed_dispatch (R : rel) (HR : closed R) m cpk1 cpk2 c d : (forall cp o n z, used m d cp o n -> oeq (R dv) (cpk1 cp (d_sect7 d) o n z) (cpk2 cp (d_sect7 d) o n z)) ->
  oeq (req (R f32)) (values_with cpk1 c m d) (values_with cpk2 c m d) /\ oeq (req (R f32)) (dispatch_with cpk1 c m d) (dispatch_with cpk2 c m d).
Proof.
  intros H. assert (V : oeq (req (R f32)) (values_with cpk1 c m d) (values_with cpk2 c m d)).
  { unfold values_with. destruct (Z.eqb_spec (d_template d) 2) as [T|T]; [|destruct (Z.eqb_spec (d_template d) 3) as [T3|T3]].
    - unfold decode_7_2_with. apply oeq_same'. intros b1 E0. apply oeq_same'. intros [sp|e] E1; [|apply oeq_err]. apply oeq_same'. intros b2 E2. apply oeq_same'. intros cp E3. destruct (complex_unsupported cp); [apply oeq_err|].
      eapply oeq_bind; [apply H; split; [exists b1, sp; auto|exists b2; auto]|]. intros a b Hab. apply oeq_ok. apply (cl_map R HR), Hab.
    - unfold decode_7_3_with. apply oeq_same'. intros b1 E0. apply oeq_same'. intros [sp|e] E1; [|apply oeq_err]. apply oeq_same'. intros b2 E2. apply oeq_same'. intros cp E3. apply oeq_same'. intros o E4.
      destruct (table5_6_of o) as [t|] eqn:E5; [|apply oeq_err]. apply oeq_same'. intros k E6. destruct (_ || match t with Missing56 => true | _ => false end) eqn:U; [apply oeq_err|]. apply oeq_same'. intros [sd|e] E7; [|apply oeq_err]. apply oeq_same. intros z.
      eapply oeq_bind.
      { apply H. split; [exists b1, sp; auto|]. exists b2. split; [exact E2|]. split; [exact E3|]. right. split; [exact T3|]. exists o, t, k, sd. repeat split; auto. intros ->. rewrite Bool.orb_true_r in U. discriminate U. }
      intros a b Hab. apply oeq_same. intros fi. destruct t; [| |reflexivity]; apply oeq_ok, (cl_map R HR); [apply (cl_diff1 R HR)|apply (cl_diff2 R HR)]; exact Hab.
    - destruct (template_values c m d) as [[it|e]| |]; [apply oeq_ok, (cl_refl R HR)|apply oeq_err|reflexivity|reflexivity]. }
  split; [exact V|]. unfold dispatch_with. eapply oeq_bind; [exact V|]. intros [a|e] b Hab; cbn [req] in Hab; [destruct Hab as (b' & -> & Hab)|subst b; apply oeq_err].
  unfold bitmap_iter, bitmap_new. destruct (_ <? _); [apply oeq_err|]. apply oeq_ok. apply (cl_bitmap R HR), Hab.
Qed.

(** The first one does what the second one does, or stops with [stop]. *)
Definition less {A} (stop : outcome A) (x y : outcome A) : Prop := x = stop \/ x = y.
Inductive kind := Full | Dead.
Definition stop (k : kind) {A} : outcome A := match k with Full => Diverge | Dead => Panic end.
Notation LS k := (less (stop k)).
Lemma ls_refl k {A} (x : outcome A) : LS k x x.
Proof. right. reflexivity. Qed.
Lemma ls_bind k {A B} (x y : outcome A) (f g : A -> outcome B) : LS k x y -> (forall a, LS k (f a) (g a)) -> LS k (bind x f) (bind y g).
Proof. intros [->| ->] H; [left; destruct k; reflexivity|]. destruct y as [a| |]; cbn [bind]; [apply H|right; reflexivity|right; reflexivity]. Qed.
Definition short (k : kind) : rel := fun A it1 it2 =>
  exists S (s : S) f g, it1 = MkIter S s f /\ it2 = MkIter S s g /\ forall x, LS k (f x) (g x).
Lemma short_mk k {A S} (s : S) (f g : S -> outcome (option A * S)) : (forall x, LS k (f x) (g x)) -> short k A (MkIter S s f) (MkIter S s g).
Proof. intros. exists S, s, f, g. auto. Qed.
Lemma short_closed k : closed (short k).
Proof.
  constructor.
  - intros A [S s f]. apply short_mk. intros. apply ls_refl.
  - intros A B h it1 it2 (S & s & f & g & -> & -> & H). unfold imap. cbn [istep icur ist]. apply short_mk. intros x. apply ls_bind; [apply H|]. intros. apply ls_refl.
  - intros m it1 it2 l (S & s & f & g & -> & -> & H). unfold diff1_iter. cbn [istep icur ist]. apply short_mk. intros [x fi co pr]. unfold diff1_next. apply ls_bind; [apply H|]. intros. apply ls_refl.
  - intros m it1 it2 l (S & s & f & g & -> & -> & H). unfold diff2_iter. cbn [istep icur ist]. apply short_mk. intros [x fi co p1 p2]. unfold diff2_next. apply ls_bind; [apply H|]. intros. apply ls_refl.
  - intros it1 it2 bm len (S & s & f & g & -> & -> & H). cbn [istep icur ist]. apply short_mk. intros [b x n o]. unfold bitmap_next.
    destruct (n <=? o); [apply ls_refl|]. destruct (if o <? 7 then _ else _) as [[ob b'] o']. destruct ob as [cc|]; [|apply ls_refl].
    destruct (has_zero_at_offset cc o); [apply ls_refl|]. apply ls_bind; [apply H|]. intros. apply ls_refl.
Qed.
Lemma short_run {A} : forall (it1 : iter A) l e, Run it1 l e -> forall it2, short Full A it1 it2 -> Run it2 l e.
Proof.
  induction 1 as [it it' E|it E|it it' a l e E R IH]; intros it2 (S & s & f & g & -> & -> & H); unfold next in E; cbn [istep icur ist] in E; destruct (H s) as [X|X]; try (rewrite X in E; discriminate E); destruct (f s) as [[o s']| |] eqn:F; try discriminate E.
  - injection E as -> <-. apply Run_end with (MkIter S s' g). unfold next. cbn [istep icur ist]. rewrite <- X. reflexivity.
  - apply Run_crash. unfold next. cbn [istep icur ist]. rewrite <- X. reflexivity.
  - injection E as -> <-. apply Run_cons with (MkIter S s' g); [unfold next; cbn [istep icur ist]; rewrite <- X; reflexivity|]. apply IH, short_mk, H.
Qed.
Lemma dead_run {A} : forall (it2 : iter A) l e, Run it2 l e -> forall it1, short Dead A it1 it2 -> Run it1 l e \/ exists l1 l2, l = l1 ++ l2 /\ Run it1 l1 Crash.
Proof.
  induction 1 as [it it' E|it E|it it' a l e E R IH]; intros it1 (S & s & f & g & -> & -> & H); unfold next in E; cbn [istep icur ist] in E;
    (destruct (H s) as [X|X]; cbn [stop] in X; [right; exists []; eexists; (split; [reflexivity|]); apply Run_crash; unfold next; cbn [istep icur ist]; rewrite X; reflexivity|]); destruct (g s) as [[o s']| |] eqn:F; try discriminate E.
  - left. injection E as -> <-. apply Run_end with (MkIter S s' f). unfold next. cbn [istep icur ist]. rewrite X. reflexivity.
  - left. apply Run_crash. unfold next. cbn [istep icur ist]. rewrite X. reflexivity.
  - injection E as -> <-. assert (N : next (MkIter S s f) = Ret (Some a, MkIter S s' f)) by (unfold next; cbn [istep icur ist]; rewrite X; reflexivity).
    destruct (IH (MkIter S s' f)) as [R1|(l1 & l2 & -> & R1)]; [apply short_mk, H|left; eapply Run_cons; eassumption|].
    right. exists (a :: l1), l2. split; [reflexivity|]. eapply Run_cons; eassumption.
Qed.

Lemma near_closed (ok : Prop) : closed (fun A => near ok (fun _ : A => True)).
Proof.
  constructor; intros.
  - apply near_refl.
  - eapply near_imap; [eassumption|auto].
  - eapply near_diff1; eassumption.
  - eapply near_diff2; eassumption.
  - eapply near_bitmap; eassumption.
Qed.

(** At most [k] items, or items of another iterator one for one. *)
Definition at_most (k : Z) {A} (it : iter A) : Prop := forall l it', Steps it l it' -> zlen l <= k.
Definition driven {A B} (it : iter A) (inner : iter B) : Prop :=
  exists S T (s : S) (t : T) f g (p : S -> T), it = MkIter S s f /\ inner = MkIter T t g /\ p s = t /\
    forall x a x', f x = Ret (Some a, x') -> exists b, g (p x) = Ret (Some b, p x').
Lemma driven_most {A B} k (it : iter A) (inner : iter B) : driven it inner -> at_most k inner -> at_most k it.
Proof.
  intros (S & T & s & t & f & g & p & -> & -> & E & H) M l it' St.
  assert (X : exists l2 it2, Steps (MkIter T t g) l2 it2 /\ zlen l2 = zlen l).
  { clear M. remember (MkIter S s f) as it eqn:Eit. revert s t E Eit. induction St as [it|it it1 it' a l N St IH]; intros s t E Eit; subst it.
    - exists [], (MkIter T t g). split; [constructor|reflexivity].
    - unfold next in N. cbn [istep icur ist] in N. destruct (f s) as [[o s']| |] eqn:F; try discriminate N. injection N as -> <-. destruct (H s a s' F) as (b & G).
      destruct (IH s' (p s') eq_refl eq_refl) as (l2 & it2 & S2 & L2). exists (b :: l2), it2. split; [|rewrite !zlen_cons; lia].
      eapply Steps_cons; [|exact S2]. unfold next. cbn [istep icur ist]. rewrite <- E, G. reflexivity. }
  destruct X as (l2 & it2 & S2 & <-). eapply M, S2.
Qed.
Lemma driven_map {A B} (h : A -> outcome B) it : driven (imap h it) it.
Proof.
  destruct it as [S s f]. unfold imap. cbn [istep icur ist]. exists S, S, s, s. eexists _, f, (fun x => x). split; [reflexivity|]. split; [reflexivity|]. split; [reflexivity|].
  intros x a x' E. destruct (f x) as [[[y|] s']| |]; cbn [bind] in E; try discriminate E. destruct (h y); cbn [bind] in E; try discriminate E. injection E as <- <-. eauto.
Qed.
Lemma driven_diff1 m it l : driven (diff1_iter m it l) it.
Proof.
  destruct it as [S s f]. unfold diff1_iter. cbn [istep icur ist]. exists (diff1_state S), S, (D1 s l 0 0), s. eexists _, f, (d1_iter S). split; [reflexivity|]. split; [reflexivity|]. split; [reflexivity|].
  intros [x fi co pr] a x' E. cbn [diff1_next d1_iter] in *. destruct (f x) as [[[[v| |]|] s']| |]; cbn [bind] in E; try discriminate E.
  - destruct (co =? 0); [destruct fi; try discriminate E; injection E as <- <-; cbn [d1_iter]; eauto|]. destruct (arith m I32 (v + pr)); cbn [bind] in E; try discriminate E. injection E as <- <-. cbn [d1_iter]. eauto.
  - injection E as <- <-. cbn [d1_iter]. eauto.
  - injection E as <- <-. cbn [d1_iter]. eauto.
Qed.
Lemma driven_diff2 m it l : driven (diff2_iter m it l) it.
Proof.
  destruct it as [S s f]. unfold diff2_iter. cbn [istep icur ist]. exists (diff2_state S), S, (D2 s l 0 0 0), s. eexists _, f, (d2_iter S). split; [reflexivity|]. split; [reflexivity|]. split; [reflexivity|].
  intros [x fi co p1 p2] a x' E. cbn [diff2_next d2_iter] in *. destruct (f x) as [[[[v| |]|] s']| |]; cbn [bind] in E; try discriminate E.
  - destruct (co =? 0); [destruct fi; try discriminate E; injection E as <- <-; cbn [d2_iter]; eauto|]. destruct (co =? 1); [destruct fi; try discriminate E; injection E as <- <-; cbn [d2_iter]; eauto|].
    destruct (arith m I32 (2 * p1)) as [t| |]; cbn [bind] in E; try discriminate E. destruct (arith m I32 (v + t)) as [t'| |]; cbn [bind] in E; try discriminate E. destruct (arith m I32 (t' - p2)); cbn [bind] in E; try discriminate E. injection E as <- <-. cbn [d2_iter]. eauto.
  - injection E as <- <-. cbn [d2_iter]. eauto.
  - injection E as <- <-. cbn [d2_iter]. eauto.
Qed.
Lemma Run_most {A} k (it : iter A) l e : at_most k it -> Run it l e -> zlen l <= k.
Proof.
  intros M R. assert (X : exists it', Steps it l it').
  { clear M. induction R as [it it' E|it E|it it' a l e E R (it2 & IH)]; [exists it; constructor|exists it; constructor|]. exists it2. eapply Steps_cons; eassumption. }
  destruct X as (it' & X). eapply M, X.
Qed.
Lemma values_most cpk c m d k it : (forall cp o n z, used m d cp o n -> match cpk cp (d_sect7 d) o n z with Ret i => at_most k i | _ => True end) -> d_template d = 2 \/ d_template d = 3 ->
  values_with cpk c m d = Ret (Ok it) -> at_most k it.
Proof.
  intros H T0 E. unfold values_with in E. destruct T0 as [T|T]; rewrite T in E.
  - change (2 =? 2) with true in E. cbv iota in E. unfold decode_7_2_with in E. destruct (slice (d_sect5 d) 6 16) as [b1| |] eqn:E0; cbn [bind] in E; try discriminate E.
    destruct (simple_param_from_buf m b1) as [[sp|e]| |] eqn:E1; cbn [bind] in E; try discriminate E. destruct (slice (d_sect5 d) 16 42) as [b2| |] eqn:E2; cbn [bind] in E; try discriminate E.
    destruct (complex_param_from_buf b2) as [cp| |] eqn:E3; cbn [bind] in E; try discriminate E. destruct (complex_unsupported cp); [discriminate E|].
    specialize (H cp 0 (sp_nbit sp) 0 ltac:(split; [exists b1, sp; auto|exists b2; auto])). destruct (cpk cp (d_sect7 d) 0 (sp_nbit sp) 0) as [i| |]; cbn [bind] in E; try discriminate E. injection E as <-. eapply driven_most; [apply driven_map|exact H].
  - change (3 =? 2) with false in E. change (3 =? 3) with true in E. cbv iota in E. unfold decode_7_3_with in E. destruct (slice (d_sect5 d) 6 16) as [b1| |] eqn:E0; cbn [bind] in E; try discriminate E.
    destruct (simple_param_from_buf m b1) as [[sp|e]| |] eqn:E1; cbn [bind] in E; try discriminate E. destruct (slice (d_sect5 d) 16 42) as [b2| |] eqn:E2; cbn [bind] in E; try discriminate E.
    destruct (complex_param_from_buf b2) as [cp| |] eqn:E3; cbn [bind] in E; try discriminate E. destruct (read_u8 (d_sect5 d) 42) as [o| |] eqn:E4; cbn [bind] in E; try discriminate E.
    destruct (table5_6_of o) as [t|] eqn:E5; [|discriminate E]. destruct (read_u8 (d_sect5 d) 43) as [kk| |] eqn:E6; cbn [bind] in E; try discriminate E.
    destruct (_ || match t with Missing56 => true | _ => false end) eqn:U; [discriminate E|].
    destruct (spdiff_new m (d_sect7 d) (table5_6_code t) kk) as [[sd|e]| |] eqn:E7; cbn [bind] in E; try discriminate E. destruct (spdiff_minimum m sd) as [z| |]; cbn [bind] in E; try discriminate E.
    assert (Hu : used m d cp (spdiff_len sd) (sp_nbit sp)).
    { split; [exists b1, sp; auto|]. exists b2. split; [exact E2|]. split; [exact E3|]. right. split; [exact T|]. exists o, t, kk, sd. repeat split; auto. intros ->. rewrite Bool.orb_true_r in U. discriminate U. }
    specialize (H cp (spdiff_len sd) (sp_nbit sp) z Hu). destruct (cpk cp (d_sect7 d) (spdiff_len sd) (sp_nbit sp) z) as [i| |]; cbn [bind] in E; try discriminate E. destruct (collect_first_values m sd) as [f| |]; cbn [bind] in E; try discriminate E.
    destruct t; try discriminate E; injection E as <-; (eapply driven_most; [apply driven_map|]); (eapply driven_most; [|exact H]); [apply driven_diff1|apply driven_diff2].
Qed.
