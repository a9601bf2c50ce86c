(** Builds with and without overflow checks: primitive operations, iterators. *)
From Coq Require Import Lia ZifyBool ZifyNat.
From Verif Require Import Model.Base Model.Helpers Model.Errors Model.F32 Model.Sections Model.Reader Model.Parser Model.Context.
From Verif Require Import Spec.ProfileS Proofs.BaseLemmas.

Notation SU := same_unless_panic.
Lemma su_refl {A} (x : outcome A) : SU x x.
Proof. right. reflexivity. Qed.
Lemma su_panic {A} (y : outcome A) : SU Panic y.
Proof. left. reflexivity. Qed.
Lemma su_bind {A B} (x y : outcome A) (f g : A -> outcome B) : SU x y -> (forall a, SU (f a) (g a)) -> SU (bind x f) (bind y g).
Proof. intros [->| ->] H; [left; reflexivity|]. destruct x as [a| |]; cbn [bind]; [apply H|left; reflexivity|right; reflexivity]. Qed.
Lemma su_arith t z : SU (arith Checked t z) (arith Wrapping t z).
Proof. unfold arith. destruct (in_range t z); [right|left]; reflexivity. Qed.
Lemma su_shift t k : SU (shift_amount Checked t k) (shift_amount Wrapping t k).
Proof. unfold shift_amount. destruct (_ && _); [right|left]; reflexivity. Qed.
Lemma su_shl t x k : SU (shl Checked t x k) (shl Wrapping t x k).
Proof. apply su_bind; [apply su_shift|intros; apply su_refl]. Qed.
Lemma su_shr t x k : SU (shr Checked t x k) (shr Wrapping t x k).
Proof. apply su_bind; [apply su_shift|intros; apply su_refl]. Qed.

(** One step of reducing a goal [SU (f Checked ..) (f Wrapping ..)]. *)
Create HintDb su.
#[export] Hint Constants Opaque : su.
#[export] Hint Resolve su_arith su_shift su_shl su_shr su_panic : su.
Ltac sr := match goal with |- SU ?x ?y => constr_eq x y; exact (su_refl x) end.
Ltac su1 := match goal with
  | |- _ => sr
  | |- SU (bind _ _) (bind _ _) => apply su_bind; [|intros ?]
  | |- SU _ _ => solve [auto with su nocore]
  | |- SU (match ?x with _ => _ end) _ => destruct x eqn:?; try discriminate
  | |- SU (let x := ?v in _) _ => cbv zeta
  end.
Ltac su := cbv zeta; repeat (su1; cbv zeta).

(** Reading the machine states. *)
Lemma su_int u d x : SU (as_grib_int Checked u d x) (as_grib_int Wrapping u d x).
Proof. unfold as_grib_int. su. Qed.
#[export] Hint Resolve su_int : su.
Lemma su_i8 l i : SU (read_i8 Checked l i) (read_i8 Wrapping l i).
Proof. unfold read_i8. su. Qed.
Lemma su_i16 l i : SU (read_i16 Checked l i) (read_i16 Wrapping l i).
Proof. unfold read_i16. su. Qed.
Lemma su_i32 l i : SU (read_i32 Checked l i) (read_i32 Wrapping l i).
Proof. unfold read_i32. su. Qed.
#[export] Hint Resolve su_i8 su_i16 su_i32 : su.
Lemma su_bytes l : SU (grib_int_from_bytes Checked l) (grib_int_from_bytes Wrapping l).
Proof. unfold grib_int_from_bytes. su. Qed.
#[export] Hint Resolve su_bytes : su.

(** ** The section reader *)
Section Parser.
  Context {S : Type} (step1 step2 : S -> outcome (option item * S)).
  Hypothesis HS : forall s, SU (step1 s) (step2 s).
  Lemma su_enum v : SU (enum_next step1 v) (enum_next step2 v).
  Proof. unfold enum_next. apply su_bind; [apply HS|]. intros. su. Qed.
  Lemma su_pk v : SU (pk_next step1 v) (pk_next step2 v).
  Proof. unfold pk_next. destruct (v_peeked v); [apply su_refl|apply su_enum]. Qed.
  Lemma su_peek v : SU (pk_peek step1 v) (pk_peek step2 v).
  Proof. unfold pk_peek. destruct (v_peeked v); [apply su_refl|apply su_bind; [apply su_enum|intros; apply su_refl]]. Qed.
  Lemma su_0 v : SU (ensure_sect0 step1 v) (ensure_sect0 step2 v).
  Proof. apply su_bind; [apply su_pk|intros; apply su_refl]. Qed.
  Lemma su_234 v : SU (ensure_sect_2_or_3_or_4 step1 v) (ensure_sect_2_or_3_or_4 step2 v).
  Proof. apply su_bind; [apply su_pk|intros; apply su_refl]. Qed.
  Lemma su_num v n : SU (ensure_sect_num step1 v n) (ensure_sect_num step2 v n).
  Proof. apply su_bind; [apply su_pk|intros; apply su_refl]. Qed.
  Lemma su_8 v : SU (ensure_sect8 step1 v) (ensure_sect8 step2 v).
  Proof.
    apply su_bind; [apply su_peek|]. intros [[[p [s0|e]]|] v']; [destruct (s_num s0 =? 8); [|apply su_refl]| |apply su_refl]; (apply su_bind; [apply su_pk|intros; apply su_refl]).
  Qed.
  Lemma su_v v : SU (v_next step1 v) (v_next step2 v).
  Proof. unfold v_next. pose proof su_0. pose proof su_234. pose proof su_num. pose proof su_8. destruct (v_state v) as [|n| |]; auto using su_refl. repeat (destruct n as [|n|n]; auto using su_refl). Qed.
  Lemma su_vloop fuel : forall b c4 c5 c6 c7, SU (vsub_loop step1 fuel b c4 c5 c6 c7) (vsub_loop step2 fuel b c4 c5 c6 c7).
  Proof.
    induction fuel as [|fuel IH]; intros; [apply su_refl|]. cbn [vsub_loop]. apply su_bind; [apply su_v|]. intros [[[[[[p mc] smc] s]|e]|] v]; try sr.
    destruct (s_num s) as [|n|n]; auto using su_refl. repeat (destruct n as [n|n|]; auto using su_refl).
  Qed.
  Lemma su_iloop fuel : forall b c4 c5 c6 c7, SU (isub_loop step1 fuel b c4 c5 c6 c7) (isub_loop step2 fuel b c4 c5 c6 c7).
  Proof.
    induction fuel as [|fuel IH]; intros; [apply su_refl|]. cbn [isub_loop]. apply su_bind; [apply su_v|]. intros [[[[[[p mc] smc] s]|e]|] v]; try sr. cbv zeta.
    destruct (s_num s) as [|n|n]; auto using su_refl. repeat (destruct n as [n|n|]; auto using su_refl).
  Qed.
End Parser.

Definition sur {A} (x y : rd A) : Prop := forall s, SU (x s) (y s).
Lemma sur_refl {A} (x : rd A) : sur x x.
Proof. intros s. apply su_refl. Qed.
Lemma sur_bind {A B} (x y : rd A) (f g : A -> rd B) : sur x y -> (forall a, sur (f a) (g a)) -> sur (rbind x f) (rbind y g).
Proof. intros H K s. apply su_bind; [apply H|]. intros [[a|e] s']; [apply K|apply su_refl]. Qed.
Lemma sur_pure {A} (x y : outcome A) : SU x y -> sur (rpure x) (rpure y).
Proof. intros H s. apply su_bind; [exact H|intros; apply su_refl]. Qed.
Lemma sur_6 n : sur (read_sect6_payload Checked n) (read_sect6_payload Wrapping n).
Proof. apply sur_bind; [apply sur_refl|]. intros. apply sur_bind; [apply sur_pure, su_arith|]. intros. apply sur_refl. Qed.
Lemma sur_payload h : sur (read_sect_payload Checked h) (read_sect_payload Wrapping h).
Proof.
  destruct h as [size num]. apply sur_bind; [apply sur_pure, su_arith|]. intros n. destruct (_ && _); [apply sur_refl|]. destruct (num =? 6); [apply sur_6|]. apply sur_refl.
Qed.
Lemma sur_slice s : sur (read_sect_payload_as_slice Checked s) (read_sect_payload_as_slice Wrapping s).
Proof. apply sur_bind; [apply sur_pure, su_arith|]. intros. apply sur_bind; [apply sur_refl|]. intros. apply sur_bind; [apply sur_pure, su_arith|]. intros. apply sur_refl. Qed.
Lemma su_reread s x : SU (reread Checked s x) (reread Wrapping s x).
Proof. apply sur_slice. Qed.
#[export] Hint Resolve su_reread : su.
Lemma su_section s : SU (next_section Checked s) (next_section Wrapping s).
Proof.
  unfold next_section. destruct (rest s =? 0); [|destruct (rest s =? 4)].
  - unfold next_sect0. cbv zeta. apply su_bind; [apply su_refl|]. intros [[[[o i]|]|e] s']; [|apply su_refl|apply su_refl]. su.
  - unfold next_sect8. apply su_bind; [apply su_refl|]. intros [[[u|]|e] s']; [|apply su_refl|apply su_refl]. su.
  - unfold next_sect. apply su_bind; [apply su_refl|]. intros [[[[size num]|]|e] s']; [|apply su_refl|apply su_refl]. apply su_bind; [apply su_arith|]. intros. apply su_bind; [apply sur_payload|]. intros. su.
Qed.
Lemma su_loop fuel : forall b acc, SU (read_loop Checked fuel b acc) (read_loop Wrapping fuel b acc).
Proof.
  induction fuel as [|fuel IH]; intros; [apply su_refl|]. cbn [read_loop]. apply su_bind; [apply su_iloop, su_section|]. intros [[[u|e]|] b']; auto using su_refl.
Qed.
Lemma su_read fuel s : SU (grib2_read Checked fuel s) (grib2_read Wrapping fuel s).
Proof. unfold grib2_read. apply su_bind; [apply su_loop|]. intros. apply su_refl. Qed.
#[export] Hint Resolve su_read : su.

(** ** Iterators *)
Definition alike {A} (it1 it2 : iter A) : Prop :=
  exists S (s : S) f g, it1 = MkIter S s f /\ it2 = MkIter S s g /\ forall x, SU (f x) (g x).
Lemma alike_refl {A} (it : iter A) : alike it it.
Proof. destruct it as [S s f]. exists S, s, f, f. repeat split; auto using su_refl. Qed.
Lemma alike_mk {A S} (s : S) (f g : S -> outcome (option A * S)) : (forall x, SU (f x) (g x)) -> alike (MkIter S s f) (MkIter S s g).
Proof. intros. exists S, s, f, g. auto. Qed.
Lemma alike_map {A B} (h k : A -> outcome B) it1 it2 : alike it1 it2 -> (forall a, SU (h a) (k a)) -> alike (imap h it1) (imap k it2).
Proof.
  intros (S & s & f & g & -> & -> & H) K. unfold imap. cbn [istep icur ist]. apply alike_mk. intros x. apply su_bind; [apply H|]. intros [[a|] s']; [|apply su_refl]. apply su_bind; [apply K|intros; apply su_refl].
Qed.
Lemma alike_take {A} n (it1 it2 : iter A) : alike it1 it2 -> alike (itake n it1) (itake n it2).
Proof.
  intros (S & s & f & g & -> & -> & H). unfold itake. cbn [istep icur ist]. apply alike_mk. intros [k x]. destruct (k <=? 0); [apply su_refl|]. apply su_bind; [apply H|intros; apply su_refl].
Qed.
Lemma alike_chain {A} (it1 it2 : iter A) x : alike it1 it2 -> alike (ichain_once it1 x) (ichain_once it2 x).
Proof.
  intros (S & s & f & g & -> & -> & H). unfold ichain_once. cbn [istep icur ist]. apply alike_mk. intros [[y|] todo]; [|apply su_refl]. apply su_bind; [apply H|intros; apply su_refl].
Qed.
Lemma su_collect {A} fuel : forall it1 it2 : iter A, alike it1 it2 -> SU (collect fuel it1) (collect fuel it2).
Proof.
  induction fuel as [|fuel IH]; intros it1 it2 (S & s & f & g & -> & -> & H); [apply su_refl|]. cbn [collect]. unfold next. cbn [istep icur ist].
  destruct (H s) as [E|E]; [rewrite E; left; reflexivity|]. rewrite E. destruct (f s) as [[[a|] s']| |]; cbn [bind]; try sr.
  apply su_bind; [|intros; apply su_refl]. apply IH, alike_mk, H.
Qed.
Lemma alike_items {A} (it1 it2 : iter A) : alike it1 it2 -> same_items it1 it2.
Proof.
  intros H. split.
  - intros l R. remember End as e. revert it2 H Heqe. induction R as [it it' E|it E|it it' a l e E R IH]; intros it2 (S & s & f & g & -> & -> & H) K; [|discriminate|]; unfold next in E; cbn [istep icur ist] in E.
    + destruct (H s) as [X|X]; [rewrite X in E; discriminate|]. destruct (f s) as [[o s']| |]; try discriminate. injection E as -> <-. apply Run_end with (MkIter S s' g). unfold next. cbn [istep icur ist]. rewrite X. reflexivity.
    + destruct (H s) as [X|X]; [rewrite X in E; discriminate|]. destruct (f s) as [[o s']| |]; try discriminate. injection E as -> <-. apply Run_cons with (MkIter S s' g).
      * unfold next. cbn [istep icur ist]. rewrite X. reflexivity.
      * apply IH; [apply alike_mk, H|exact K].
  - intros l it R. revert it2 H. induction R as [it|it it1 it' a l E R IH]; intros it2 (S & s & f & g & -> & -> & H); [eexists; constructor|]. unfold next in E. cbn [istep icur ist] in E.
    destruct (H s) as [X|X]; [rewrite X in E; discriminate|]. destruct (f s) as [[o s']| |]; try discriminate. injection E as -> <-. destruct (IH (MkIter S s' g) ltac:(apply alike_mk, H)) as (it2 & R2). exists it2. apply Steps_cons with (MkIter S s' g); [|exact R2].
    unfold next. cbn [istep icur ist]. rewrite X. reflexivity.
Qed.
