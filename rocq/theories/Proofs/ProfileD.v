(** Builds with and without overflow checks: decoding. *)
From Coq Require Import Lia ZifyBool ZifyNat.
From Verif Require Import Model.Base Model.Helpers Model.Errors Model.F32 Model.Stream Model.Diff Model.Complex Model.Simple Model.RunLength Model.Bitmap.
From Verif Require Import Model.Sections Model.Reader Model.Parser Model.Context Model.Product Model.Decoder Model.Session.
From Verif Require Import Spec.ProfileS Proofs.BaseLemmas Proofs.ProfileP.

Lemma su_acc n : forall d p v, SU (nbit_accumulate n Checked d p v) (nbit_accumulate n Wrapping d p v).
Proof. induction n as [|n IH]; intros; [apply su_refl|]. cbn [nbit_accumulate]. su. Qed.
#[export] Hint Resolve su_acc : su.
Lemma su_nbit s : SU (nbit_next Checked s) (nbit_next Wrapping s).
Proof. destruct s as [d size p o]. unfold nbit_next. su. Qed.
#[export] Hint Resolve su_nbit : su.
Lemma alike_nbit s : alike (nbit_iter Checked s) (nbit_iter Wrapping s).
Proof. apply alike_mk, su_nbit. Qed.
Lemma alike_stream d n k : alike (bit_stream Checked d n k) (bit_stream Wrapping d n k).
Proof. unfold bit_stream. destruct (n =? 0); [apply alike_refl|apply alike_nbit]. Qed.
#[export] Hint Resolve alike_refl alike_nbit alike_stream alike_take alike_chain : su.

Lemma su_param l : SU (simple_param_from_buf Checked l) (simple_param_from_buf Wrapping l).
Proof. unfold simple_param_from_buf. su. Qed.
Lemma su_octets n k : SU (get_octet_length Checked n k) (get_octet_length Wrapping n k).
Proof. unfold get_octet_length. su. Qed.
Lemma su_constant a b c d e : SU (group_constant Checked a b c d e) (group_constant Wrapping a b c d e).
Proof. unfold group_constant. su. Qed.
Lemma su_value a b c d e f : SU (group_value Checked a b c d e f) (group_value Wrapping a b c d e f).
Proof. unfold group_value. su. Qed.
#[export] Hint Resolve su_param su_octets su_constant su_value : su.
Lemma su_packed a b d e f g h i : SU (group_packed Checked a b d e f g h i) (group_packed Wrapping a b d e f g h i).
Proof.
  unfold group_packed. destruct (max_of I32 <? g); [apply su_refl|]. cbv zeta. apply su_bind; [apply su_shl|]. intros one. apply su_bind; [apply su_arith|]. intros m1. apply su_bind; [apply su_arith|]. intros m2.
  apply su_bind; [apply su_refl|]. intros s. apply su_bind; [|intros; apply su_refl]. apply su_collect, alike_map; [auto with su|]. intros. apply su_value.
Qed.
#[export] Hint Resolve su_packed : su.
Section Groups.
  Variables R W L : Type.
  Variables (r1 r2 : R -> outcome (option Z * R)) (w1 w2 : W -> outcome (option Z * W)) (l1 l2 : L -> outcome (option Z * L)).
  Hypothesis Hr : forall s, SU (r1 s) (r2 s).
  Hypothesis Hw : forall s, SU (w1 s) (w2 s).
  Hypothesis Hl : forall s, SU (l1 s) (l2 s).
  Variables (mvm nbit zmin : Z) (data : list byte).
  Lemma su_groups s : SU (groups_next R W L r1 w1 l1 Checked mvm nbit zmin data s) (groups_next R W L r2 w2 l2 Wrapping mvm nbit zmin data s).
  Proof.
    destruct s as [r w l p o]. unfold groups_next. apply su_bind; [apply Hr|]. intros [o1 r']. apply su_bind; [apply Hw|]. intros [o2 w']. apply su_bind; [apply Hl|]. intros [o3 l'].
    destruct o1, o2, o3; try sr. su.
  Qed.
  Lemma su_flat fuel : forall s, SU (flat_next R W L r1 w1 l1 Checked mvm nbit zmin data fuel s) (flat_next R W L r2 w2 l2 Wrapping mvm nbit zmin data fuel s).
  Proof.
    induction fuel as [|fuel IH]; intros [[|v front] [g|]]; cbn [flat_next]; try sr. apply su_bind; [apply su_groups|]. intros [[vs|] g']; [apply IH|apply su_refl].
  Qed.
End Groups.

(** Functions that return iterators. *)
Inductive oa {A} (R : A -> A -> Prop) : outcome A -> outcome A -> Prop :=
| oa_panic : forall y, oa R Panic y
| oa_div : oa R Diverge Diverge
| oa_ret : forall a b, R a b -> oa R (Ret a) (Ret b).
Lemma oa_bind_su {A B} (R : B -> B -> Prop) (x y : outcome A) f g : SU x y -> (forall a, oa R (f a) (g a)) -> oa R (bind x f) (bind y g).
Proof. intros [->| ->] H; [constructor|]. destruct x as [a| |]; cbn [bind]; [apply H|constructor|constructor]. Qed.
Lemma oa_bind {A B} (R : A -> A -> Prop) (Q : B -> B -> Prop) (x y : outcome A) f g : oa R x y -> (forall a b, R a b -> oa Q (f a) (g b)) -> oa Q (bind x f) (bind y g).
Proof. intros [z| |a b H] K; cbn [bind]; [constructor|constructor|apply K, H]. Qed.
Definition res {A E} (R : A -> A -> Prop) (x y : result A E) : Prop :=
  match x, y with Ok a, Ok b => R a b | Err e, Err e' => e = e' | _, _ => False end.
Lemma oa_err {A E} (R : A -> A -> Prop) (e : E) : oa (res R) (Ret (Err e)) (Ret (Err e)).
Proof. constructor. reflexivity. Qed.
Lemma oa_ok {A E} (R : A -> A -> Prop) a b : R a b -> oa (@res A E R) (Ret (Ok a)) (Ret (Ok b)).
Proof. intros. constructor. assumption. Qed.
Lemma oa_try {A B E} (R : A -> A -> Prop) (Q : B -> B -> Prop) (x y : outcome (result A E)) f g : oa (res R) x y -> (forall a b, R a b -> oa (res Q) (f a) (g b)) ->
  oa (res Q) (bind x (fun r => match r with Ok a => f a | Err e => Ret (Err e) end)) (bind y (fun r => match r with Ok a => g a | Err e => Ret (Err e) end)).
Proof. intros H K. eapply oa_bind; [exact H|]. intros [a|e] [b|e'] X; cbn in X; try contradiction; [apply K, X|subst; apply oa_err]. Qed.
Lemma oa_items {A E} (x y : outcome (result (iter A) E)) : oa (res alike) x y -> same_iter x y.
Proof.
  unfold same_iter. intros [z| |[a|e] [b|e'] H]; try contradiction H; [exact I|reflexivity| |cbn in H; subst; reflexivity]. exists b. split; [reflexivity|apply alike_items, H].
Qed.

Lemma oa_complex p d off nbit zmin : oa alike (decode_complex_packing Checked p d off nbit zmin) (decode_complex_packing Wrapping p d off nbit zmin).
Proof.
  unfold decode_complex_packing. cbv zeta. apply oa_bind_su; [auto with su|]. intros l1. apply oa_bind_su; [auto with su|]. intros l2. apply oa_bind_su; [auto with su|]. intros l3.
  apply oa_bind_su; [apply su_refl|]. intros d1. apply oa_bind_su; [apply su_refl|]. intros d2. apply oa_bind_su; [apply su_refl|]. intros d3. apply oa_bind_su; [apply su_arith|]. intros n1. apply oa_bind_su; [apply su_refl|]. intros dd.
  set (refs := itake (cp_ngroup p) (bit_stream Checked d1 nbit (cp_ngroup p))). set (refs' := itake (cp_ngroup p) (bit_stream Wrapping d1 nbit (cp_ngroup p))).
  set (ws := imap _ (itake _ (bit_stream Checked d2 _ _))). set (ws' := imap _ (itake _ (bit_stream Wrapping d2 _ _))). set (ls := ichain_once _ _). set (ls' := ichain_once (imap _ (itake _ (bit_stream Wrapping d3 _ _))) _).
  assert (Nr : alike refs refs') by (apply alike_take, alike_stream). assert (Nw : alike ws ws') by (apply alike_map; [apply alike_take, alike_stream|intros; apply su_arith]).
  assert (Nl : alike ls ls') by (apply alike_chain, alike_map; [apply alike_take, alike_stream|intros; su]).
  clearbody refs refs' ws ws' ls ls'. destruct Nr as (Sr & sr & fr & gr & -> & -> & Hr). destruct Nw as (Sw & sw & fw & gw & -> & -> & Hw). destruct Nl as (Sl & sl & fl & gl & -> & -> & Hl). cbn [ist icur istep].
  constructor. apply alike_mk. intros. apply su_flat; assumption.
Qed.

Lemma su_spnew l o n : SU (spdiff_new Checked l o n) (spdiff_new Wrapping l o n).
Proof. unfold spdiff_new. su. Qed.
Lemma su_end d : SU (first_value_end_pos Checked d) (first_value_end_pos Wrapping d).
Proof. apply su_arith. Qed.
#[export] Hint Resolve su_spnew su_end : su.
Lemma su_minimum d : SU (spdiff_minimum Checked d) (spdiff_minimum Wrapping d).
Proof. unfold spdiff_minimum. su. Qed.
Lemma su_first d p : SU (first_values_next Checked d p) (first_values_next Wrapping d p).
Proof. unfold first_values_next. su. Qed.
Lemma su_firsts d : SU (collect_first_values Checked d) (collect_first_values Wrapping d).
Proof. apply su_collect, alike_mk, su_first. Qed.
#[export] Hint Resolve su_minimum su_firsts : su.
Lemma alike_diff1 l it1 it2 : alike it1 it2 -> alike (diff1_iter Checked it1 l) (diff1_iter Wrapping it2 l).
Proof.
  intros (S & s & f & g & -> & -> & H). unfold diff1_iter. cbn [istep icur ist]. apply alike_mk. intros [x fi co pr]. unfold diff1_next. apply su_bind; [apply H|]. intros [[[v| |]|] s']; try sr. su.
Qed.
Lemma alike_diff2 l it1 it2 : alike it1 it2 -> alike (diff2_iter Checked it1 l) (diff2_iter Wrapping it2 l).
Proof.
  intros (S & s & f & g & -> & -> & H). unfold diff2_iter. cbn [istep icur ist]. apply alike_mk. intros [x fi co p1 p2]. unfold diff2_next. apply su_bind; [apply H|]. intros [[[v| |]|] s']; try sr. su.
Qed.
Lemma alike_simple {N} (h : N -> f32) p it1 it2 : alike it1 it2 -> alike (simple_iter h p it1) (simple_iter h p it2).
Proof. intros H. apply alike_map; [exact H|intros; apply su_refl]. Qed.

Definition pairs (x y : simple_param * iter dv) : Prop := fst x = fst y /\ alike (snd x) (snd y).
Lemma oa_param {B} (Q : B -> B -> Prop) l f g : (forall p, oa (@res B grib_error Q) (f p) (g p)) ->
  oa (res Q) (bind (simple_param_from_buf Checked l) (fun r => match r with Ok a => f a | Err e => Ret (Err e) end)) (bind (simple_param_from_buf Wrapping l) (fun r => match r with Ok a => g a | Err e => Ret (Err e) end)).
Proof. intros H. apply oa_bind_su; [apply su_param|]. intros [p|e]; [apply H|apply oa_err]. Qed.
Lemma oa_72 a b : oa (res pairs) (decode_7_2_ints Checked a b) (decode_7_2_ints Wrapping a b).
Proof.
  unfold decode_7_2_ints. apply oa_bind_su; [apply su_refl|]. intros l. apply oa_param. intros p. apply oa_bind_su; [apply su_refl|]. intros l2. apply oa_bind_su; [apply su_refl|]. intros cp.
  destruct (complex_unsupported cp); [apply oa_err|]. eapply oa_bind; [apply oa_complex|]. intros x y H. apply oa_ok. split; [reflexivity|exact H].
Qed.
Lemma oa_73 a b : oa (res pairs) (decode_7_3_ints Checked a b) (decode_7_3_ints Wrapping a b).
Proof.
  unfold decode_7_3_ints. apply oa_bind_su; [apply su_refl|]. intros l. apply oa_param. intros p. apply oa_bind_su; [apply su_refl|]. intros l2. apply oa_bind_su; [apply su_refl|]. intros cp. apply oa_bind_su; [apply su_refl|]. intros o.
  destruct (table5_6_of o) as [t|]; [|apply oa_err]. apply oa_bind_su; [apply su_refl|]. intros k. destruct (_ || _); [apply oa_err|]. apply oa_bind_su; [apply su_spnew|]. intros [d|e]; [|apply oa_err]. apply oa_bind_su; [apply su_minimum|]. intros z.
  eapply oa_bind; [apply oa_complex|]. intros x y H. apply oa_bind_su; [apply su_firsts|]. intros fi. destruct t; [apply oa_ok|apply oa_ok|constructor]; (split; [reflexivity|]); [apply alike_diff1, H|apply alike_diff2, H].
Qed.
Lemma su_rle a b c s : SU (rle_body Checked a b c s) (rle_body Wrapping a b c s).
Proof. unfold rle_body. su. Qed.
Lemma su_rloop fuel : forall a b it s, SU (rle_loop fuel Checked a b it s) (rle_loop fuel Wrapping a b it s).
Proof.
  induction fuel as [|fuel IH]; intros; [apply su_refl|]. cbn [rle_loop]. apply su_bind; [apply su_nbit|]. intros [[v|] it']; [|apply su_refl]. apply su_bind; [apply su_rle|]. intros [s'|e]; [apply IH|apply su_refl].
Qed.
#[export] Hint Resolve su_rloop : su.
Lemma su_unpack a b c d : SU (rleunpack Checked a b c d) (rleunpack Wrapping a b c d).
Proof. unfold rleunpack, rleunpack_fuel. su. Qed.
#[export] Hint Resolve su_unpack : su.
Lemma su_rdecode a b c : SU (rle_decode Checked a b c) (rle_decode Wrapping a b c).
Proof. unfold rle_decode. cbv zeta. su. Qed.
Lemma su_discard a b : SU (value_for_discard_level Checked a b) (value_for_discard_level Wrapping a b).
Proof. unfold value_for_discard_level. su. Qed.
#[export] Hint Resolve su_discard : su.
Lemma su_samples i : SU (j2k_samples Checked i) (j2k_samples Wrapping i).
Proof. unfold j2k_samples, j2k_width, j2k_height. su. Qed.
Lemma su_jp2 c l : SU (decode_jp2 c Checked l) (decode_jp2 c Wrapping l).
Proof. unfold decode_jp2. destruct (opj_image c l); [apply su_samples|apply su_refl]. Qed.
Lemma oa_values c d : oa (res alike) (template_values c Checked d) (template_values c Wrapping d).
Proof.
  assert (T0 : oa (res alike) (simple_decode Checked (d_sect5 d) (d_sect7 d) (d_encoded d)) (simple_decode Wrapping (d_sect5 d) (d_sect7 d) (d_encoded d))).
  { unfold simple_decode. apply oa_bind_su; [apply su_refl|]. intros l. apply oa_param. intros p. destruct (_ =? 0); apply oa_ok; [apply alike_refl|apply alike_simple, alike_nbit]. }
  assert (T2 : oa (res alike) (decode_7_2 Checked (d_sect5 d) (d_sect7 d)) (decode_7_2 Wrapping (d_sect5 d) (d_sect7 d))).
  { unfold decode_7_2. eapply oa_try; [apply oa_72|]. intros [p x] [p' y] [H K]. cbn in H, K. subst p'. apply oa_ok, alike_simple, K. }
  assert (T3 : oa (res alike) (decode_7_3 Checked (d_sect5 d) (d_sect7 d)) (decode_7_3 Wrapping (d_sect5 d) (d_sect7 d))).
  { unfold decode_7_3. eapply oa_try; [apply oa_73|]. intros [p x] [p' y] [H K]. cbn in H, K. subst p'. apply oa_ok, alike_simple, K. }
  assert (T40 : oa (res alike) (jpeg2000_decode c Checked (d_sect5 d) (d_sect7 d) (d_encoded d)) (jpeg2000_decode c Wrapping (d_sect5 d) (d_sect7 d) (d_encoded d))).
  { unfold jpeg2000_decode. apply oa_bind_su; [apply su_refl|]. intros l. apply oa_param. intros p. destruct (_ =? 0); [apply oa_ok, alike_refl|]. apply oa_bind_su; [apply su_jp2|]. intros [x|e]; [apply oa_ok, alike_refl|apply oa_err]. }
  assert (T41 : oa (res alike) (png_decode c Checked (d_sect5 d) (d_sect7 d) (d_encoded d)) (png_decode c Wrapping (d_sect5 d) (d_sect7 d) (d_encoded d))).
  { unfold png_decode. apply oa_bind_su; [apply su_refl|]. intros l. apply oa_param. intros p. destruct (png_buffer c _); [|apply oa_err]. destruct (_ =? 0); apply oa_ok; [apply alike_refl|apply alike_simple, alike_nbit]. }
  assert (T200 : oa (@res (iter f32) grib_error alike) (try! l := rle_decode Checked (d_sect5 d) (d_sect7 d) (d_encoded d) in Ret (Ok (iter_of_list l))) (try! l := rle_decode Wrapping (d_sect5 d) (d_sect7 d) (d_encoded d) in Ret (Ok (iter_of_list l)))).
  { apply oa_bind_su; [apply su_rdecode|]. intros [l|e]; [apply oa_ok, alike_refl|apply oa_err]. }
  unfold template_values. destruct (d_template d) as [|n|n]; auto using oa_err. repeat (destruct n as [n|n|]; auto using oa_err).
Qed.
Lemma oa_dispatch c d : oa (res alike) (dispatch c Checked d) (dispatch c Wrapping d).
Proof.
  unfold dispatch. eapply oa_try; [apply oa_values|]. intros x y (S & s & f & g & -> & -> & H). unfold bitmap_iter. cbn [ist icur istep]. unfold bitmap_new. destruct (_ <? _); [apply oa_err|]. apply oa_ok, alike_mk.
  intros [b v len off]. unfold bitmap_next. destruct (len <=? off); [apply su_refl|]. destruct (if off <? 7 then _ else _) as [[ob b'] off']. destruct ob as [o|]; [|apply su_refl]. destruct (has_zero_at_offset _ _); [apply su_refl|].
  apply su_bind; [apply H|]. intros [o1 v']. apply su_refl.
Qed.
Lemma su_rereadg s x : SU (reread_grib Checked s x) (reread_grib Wrapping s x).
Proof. unfold reread_grib. su. Qed.
Lemma su_try {A B E} (x y : outcome (result A E * src)) (f g : A -> src -> outcome (result B E * src)) : SU x y -> (forall a s, SU (f a s) (g a s)) -> SU (try_src x f) (try_src y g).
Proof. intros H K. unfold try_src. apply su_bind; [exact H|]. intros [[a|e] s]; [apply K|apply su_refl]. Qed.
Lemma su_bitmap s x i n : SU (decoder_bitmap Checked s x i n) (decoder_bitmap Wrapping s x i n).
Proof. unfold decoder_bitmap. destruct (i =? 0); [|apply su_refl]. apply su_try; [apply su_rereadg|intros; apply su_refl]. Qed.
Lemma su_from s v : SU (decoder_from Checked s v) (decoder_from Wrapping s v).
Proof.
  unfold decoder_from. destruct (s_body (snd (u_3 v))) as [[]|]; try sr. destruct (s_body (snd (u_5 v))) as [[]|]; try sr. destruct (s_body (snd (u_6 v))) as [[]|]; try sr.
  apply su_bind; [apply su_refl|]. intros total. apply su_try; [apply su_bitmap|]. intros b s1. apply su_bind; [apply su_refl|]. intros e. apply su_bind; [apply su_refl|]. intros t. apply su_try; [apply su_rereadg|]. intros s5 s2. apply su_try; [apply su_rereadg|]. intros s7 s3. apply su_refl.
Qed.
#[export] Hint Resolve su_from : su.
Lemma su_size g p : SU (sub_iter_size Checked g p) (sub_iter_size Wrapping g p).
Proof. unfold sub_iter_size. su. Qed.
#[export] Hint Resolve su_size : su.
Lemma su_step g s o : SU (se_step Checked g s o) (se_step Wrapping g s o).
Proof. unfold se_step. destruct o; try sr; su. Qed.
Lemma su_run g : forall ops s, SU (se_run Checked g s ops) (se_run Wrapping g s ops).
Proof. induction ops as [|o ops IH]; intros; [apply su_refl|]. cbn [se_run]. apply su_bind; [apply su_step|]. intros [a s']. apply su_bind; [apply IH|intros; apply su_refl]. Qed.
