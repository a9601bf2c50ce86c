(** Reading files that are cut off. *)
From Coq Require Import Lia ZifyBool ZifyNat.
From Verif Require Import Model.Base Model.Helpers Model.Errors Model.Sections Model.Reader Model.Parser Model.Context Model.Decoder.
From Verif Require Import Spec.ReaderS Spec.ParserS Spec.ReadS Spec.SessionS Spec.LocalS Spec.CutS.
From Verif Require Import Proofs.BaseLemmas Proofs.ReaderP Proofs.SectionStreamP Proofs.TableP Proofs.ExactP Proofs.ReaderX Proofs.LocalP Proofs.CutP Proofs.CutM.
From Verif Require Proofs.ReadX Proofs.FileP Proofs.WordX Proofs.ContextX Proofs.LocalD Proofs.ViewX.
Ltac Zify.zify_post_hook ::= Z.div_mod_to_equations.

Lemma crash_left P d t e c : 0 <= c -> crashes P d e c -> crashes P (d ++ t) e c.
Proof.
  intros H0 H. pose proof (zlen_left d t) as L. destruct H as [k total K E M V T B|size num A1 A2 A3 A4 A5 A6 A7|size num A1 A2 A3 A4 A5 A6 A7|size num b K A1 A2 A3 A4 A5 A6 A7 A8].
  - pose proof M as (M1 & (M2 & M3 & _) & _). apply (crash_total _ _ _ _ k total).
    + exact K.
    + exact E.
    + apply first_left. exact M.
    + rewrite octets_left by lia. exact V.
    + rewrite octets_left by lia. exact T.
    + exact B.
  - apply (crash_size _ _ _ _ size num); try assumption; try lia; try (rewrite octets_left by lia; assumption). destruct A7 as [K|[K|K]]; [auto|auto|right; right; lia].
  - apply (crash_bitmap _ _ _ _ size num); try assumption; try lia; try (rewrite octets_left by lia; assumption).
  - apply (crash_overrun _ _ _ _ size num b); try assumption; try lia; try (rewrite octets_left by lia; assumption). apply body_left; [lia|exact A6].
Qed.
Lemma fails_left P d t e c x : 0 <= c -> x <> ReadErrorEof -> fails P d e c x -> fails P (d ++ t) e c x.
Proof.
  intros H0 N H. pose proof (zlen_left d t) as L.
  destruct H as [k v A1 A2 A3 A4|A1 A2|A1 A2 A3|A1 A2 A3|size num A1 A2 A3 A4 A5 A6 A7|size num A1 A2 A3 A4 A5 A6 A7 A8|size num A1 A2 A3 A4 A5 A6 A7 A8 A9|size num A1 A2 A3 A4 A5 A6 A7]; try contradiction.
  - pose proof A2 as (M1 & (M2 & M3 & _) & _). apply (fails_version _ _ _ _ k v); try assumption; [apply first_left; exact A2|]. rewrite octets_left by lia. exact A3.
  - apply fails_end; [exact A1|lia|]. rewrite octets_left by lia. exact A3.
  - apply (fails_number _ _ _ _ size num); try assumption; try lia; try (rewrite octets_left by lia; assumption).
  - apply (fails_short _ _ _ _ size num); try assumption; try lia; try (rewrite octets_left by lia; assumption).
Qed.

Lemma eof_dec x : x = ReadErrorEof \/ x <> ReadErrorEof.
Proof. destruct x; auto; right; discriminate. Qed.

(** ** Any octets *)
Section Any.
  Variables (m : mode) (d t : list byte) (p : Z).
  Let D := d ++ t.
  Hypothesis HL : zlen D < 2 ^ 63.
  Hypothesis Hp : 0 <= p <= zlen d.
  Lemma Hl : zlen d < 2 ^ 63. Proof. pose proof (zlen_left d t). unfold D in HL. lia. Qed.
  Lemma HP : 0 <= p <= zlen D. Proof. pose proof (zlen_left d t). unfold D. lia. Qed.
  Lemma sections_left sc l it : Steps (section_stream m (MkSrc d p sc)) (map Ok l) it -> exists it', Steps (section_stream m (MkSrc D p [])) (map Ok l) it'.
  Proof.
    intros H. destruct (table_sound m d p sc l it Hl Hp H) as (e & c & T). apply (tiles_left _ d t) in T; [|lia].
    destruct (full_steps m D p HL HP l e c T) as (s' & HS & _). eauto.
  Qed.
  Lemma crash_stays sc l : Run (section_stream m (MkSrc d p sc)) (map Ok l) Crash -> Run (section_stream m (MkSrc D p [])) (map Ok l) Crash.
  Proof.
    intros H. destruct (crash_any m d p Hl Hp sc l H) as (e & c & T & C). apply (crash_iff m D p HL HP). exists e, c.
    pose proof (tiles_nonneg _ _ _ _ _ _ _ (proj1 Hp) T) as H0. split; [apply tiles_left; [lia|exact T]|apply crash_left; assumption].
  Qed.
  Lemma error_stays sc l x : x <> ReadErrorEof -> (exists it, Steps (section_stream m (MkSrc d p sc)) (map Ok l ++ [Err x]) it) ->
    exists it, Steps (section_stream m (MkSrc D p [])) (map Ok l ++ [Err x]) it.
  Proof.
    intros N (it & H). pose proof (ReaderX.error_same m d p Hl Hp sc l x it N H) as H2. apply (error_iff m d p Hl Hp) in H2. destruct H2 as (e & c & T & C).
    apply (error_iff m D p HL HP). exists e, c. pose proof (tiles_nonneg _ _ _ _ _ _ _ (proj1 Hp) T) as H0.
    split; [apply tiles_left; [lia|exact T]|apply fails_left; assumption].
  Qed.
  Variables (fuel fuel' : nat).
  Hypothesis Hf : zlen d < Z.of_nat fuel.
  Hypothesis Hf' : zlen D < Z.of_nat fuel'.
  Lemma read_left :
    match grib2_read m fuel (MkSrc d p []) with
    | Ret (Ok _) => True
    | Ret (Err (EParse e)) => e = ReadErrorEof \/ (exists k, e = UnexpectedEndOfData k) \/ grib2_read m fuel' (MkSrc D p []) = Ret (Err (EParse e))
    | Panic => grib2_read m fuel' (MkSrc D p []) = Panic
    | _ => False
    end.
  Proof.
    destruct (grib2_read m fuel (MkSrc d p [])) as [[g|e]| |] eqn:E.
    - exact I.
    - assert (K : exists x, e = EParse x).
      { unfold grib2_read in E. destruct (read_loop m fuel _ []) as [[[u|x] c]| |]; cbn [bind] in E; try discriminate. injection E as <-. eauto. }
      destruct K as (x & ->). apply (ReadX.read_error_iff m d p fuel Hl Hp Hf) in E.
      destruct E as (ms & pre & r & endp & cur & W & V & T & C & B & O). pose proof (tiles_nonneg _ _ _ _ _ _ _ (proj1 Hp) T) as H0.
      destruct r as [|[s|y] [|? ?]]; cbn [comes] in C; try contradiction; cbn [order_error] in O.
      + right. left. eauto.
      + right. right. apply (ReadX.read_error_iff m D p fuel' HL HP Hf'). exists ms, pre, [Ok s], endp, cur. destruct C as (e1 & c1 & C).
        repeat (split; [assumption|]). split; [apply tiles_left; [lia|exact T]|]. split; [exists e1, c1; apply tiles_left; [lia|exact C]|]. split; [exact B|exact O].
      + subst y. destruct (eof_dec x) as [->|N]; [left; reflexivity|]. right. right. apply (ReadX.read_error_iff m D p fuel' HL HP Hf'). exists ms, pre, [Err x], endp, cur.
        repeat (split; [assumption|]). split; [apply tiles_left; [lia|exact T]|]. split; [apply fails_left; assumption|]. split; [exact B|reflexivity].
    - apply (ReadX.read_crash_iff m d p fuel Hl Hp Hf) in E. apply (ReadX.read_crash_iff m D p fuel' HL HP Hf').
      destruct E as (ms & pre & endp & cur & W & V & T & C). pose proof (tiles_nonneg _ _ _ _ _ _ _ (proj1 Hp) T) as H0. exists ms, pre, endp, cur. repeat (split; [assumption|]).
      split; [apply tiles_left; [lia|exact T]|apply crash_left; assumption].
    - revert E. apply FileP.grib2_read_ends; cbn [data pos]; [exact Hl|lia|exact Hf].
  Qed.
End Any.

Lemma in_right A B (R : A -> B -> Prop) l l' : Forall2 R l l' -> forall y, In y l' -> exists x, In x l /\ R x y.
Proof. induction 1 as [|a b l l' H F IH]; intros y Hy; [contradiction|]. destruct Hy as [<-|Hy]; [exists a; split; [left; reflexivity|exact H]|]. destruct (IH y Hy) as (x & Hx & K). exists x. split; [right; exact Hx|exact K]. Qed.

(** ** A file that is read *)
Lemma fork_lists P d : forall l0 e c e0 c0 l1 e1 c1, tiles P d e c l0 e0 c0 -> tiles P d e c l1 e1 c1 -> ends d e1 c1 ->
  exists r, l1 = l0 ++ r /\ tiles P d e0 c0 r e1 c1.
Proof.
  induction l0 as [|x l0 IH]; intros e c e0 c0 l1 e1 c1 T U N.
  - inversion T; subst. exists l1. auto.
  - apply tiles_inv in T. destruct T as (e' & c' & T1 & T2). destruct l1 as [|y l1].
    + exfalso. inversion U; subst. exact (tile_not_ends _ _ _ _ _ _ _ T1 N).
    + apply tiles_inv in U. destruct U as (e'' & c'' & U1 & U2). destruct (tile_det _ _ _ _ _ _ _ _ _ _ T1 U1) as (-> & -> & ->).
      destruct (IH _ _ _ _ _ _ _ T2 U2 N) as (r & -> & R). exists r. auto.
Qed.
Lemma tile_num8 P d e c x e1 c1 : tile P d e c x e1 c1 -> s_num x = 8 -> e1 = c1 /\ c1 = s_offset x + 4 /\ c1 <= zlen d.
Proof. intros T N. inversion T; subst; cbn [s_num s_offset] in *; try lia. match goal with H : body_at _ _ _ _ _ |- _ => apply WordX.body_num in H end. lia. Qed.
Lemma tile_num0 P d e c x e1 c1 : tile P d e c x e1 c1 -> s_num x = 0 -> first_magic d c (s_offset x).
Proof. intros T N. inversion T; subst; cbn [s_num s_offset] in *; try lia; try assumption. match goal with H : body_at _ _ _ _ _ |- _ => apply WordX.body_num in H end. lia. Qed.
Lemma after_messages P d ms p e c : 0 <= p <= zlen d -> Forall wf_message ms -> tiles P d p p (flat_map message_sections ms) e c ->
  e = c /\ p <= c <= zlen d /\ (c = p \/ exists x, In x ms /\ c = s_offset (ms8 x) + 4).
Proof.
  intros Hp W T. induction ms as [|mm ms _] using rev_ind; [inversion T; subst; repeat split; try lia|].
  apply Forall_app in W. destruct W as (_ & W). inversion W as [|? ? W1 _]; subst. destruct W1 as (_ & _ & N8 & _).
  rewrite flat_map_app in T. cbn [flat_map] in T. rewrite app_nil_r in T. unfold message_sections in T. rewrite !app_comm_cons, app_assoc in T.
  pose proof (grows P d _ _ _ _ _ (proj1 Hp) T) as G.
  apply tiles_app_inv in T. destruct T as (e1 & c1 & _ & T). apply tiles_inv in T. destruct T as (e2 & c2 & T1 & T2). inversion T2; subst.
  destruct (tile_num8 _ _ _ _ _ _ _ T1 N8) as (-> & Ec & Hc). split; [reflexivity|]. split; [lia|]. right. exists mm. split; [apply in_or_app; right; left; reflexivity|exact Ec].
Qed.
Lemma tiles_right P d t : forall l e c e' c', 0 <= c -> c' <= zlen d -> Forall (fun x => s_num x = 7 -> 5 <= s_size x) l -> tiles P (d ++ t) e c l e' c' -> tiles P d e c l e' c'.
Proof.
  induction l as [|x l IH]; intros e c e' c' Hc Hn F T; [inversion T; subst; constructor|].
  apply tiles_inv in T. destruct T as (e1 & c1 & T1 & T2). pose proof (tile_cur _ _ _ _ _ _ _ Hc T1) as (E & B & _ & _ & Z0 & _). assert (H1 : 0 <= c1) by lia.
  pose proof (grows P _ _ _ _ _ _ H1 T2) as G. inversion F as [|? ? F7 F2]; subst.
  eapply tiles_cons; [|exact (IH _ _ _ _ H1 Hn F2 T2)]. apply (tile_right P d t); [exact Hc|lia|exact F7|exact T1].
Qed.
Lemma last_before n : forall ms, (forall x, In x ms -> s_offset (ms0 x) + 16 <= n -> s_offset (ms8 x) + 4 <= n) ->
  exists a b, ms = a ++ b /\ Forall (fun x => s_offset (ms8 x) + 4 <= n) a /\ match b with [] => True | x :: _ => n < s_offset (ms0 x) + 16 end.
Proof.
  induction ms as [|x ms IH]; intros H; [exists [], []; repeat split; constructor|].
  destruct (Z.le_gt_cases (s_offset (ms0 x) + 16) n) as [L|L].
  - destruct IH as (a & b & -> & F & B). { intros y Hy. apply H. right. exact Hy. }
    exists (x :: a), b. repeat split; auto. constructor; [|exact F]. apply H; [left; reflexivity|exact L].
  - exists [], (x :: ms). repeat split; auto.
Qed.

Section Whole.
  Variables (d t : list byte) (p : Z) (f' : nat) (g' : grib2).
  Let D := d ++ t.
  Hypothesis HL : zlen D < 2 ^ 63.
  Hypothesis Hp : 0 <= p <= zlen d.
  Hypothesis HR : grib2_read Checked f' (MkSrc D p []) = Ret (Ok g').
  Lemma HPD : 0 <= p <= zlen D. Proof. pose proof (zlen_left d t). unfold D. lia. Qed.
  Lemma Hld : zlen d < 2 ^ 63. Proof. pose proof (zlen_left d t). unfold D in HL. lia. Qed.
  Lemma whole_facts : exists ms us e c, Forall wf_message ms /\ g_sections g' = flat_map message_sections ms /\ submessages_of_all 0 ms us /\
    Forall2 (indexes (g_sections g')) us (g_subs g') /\ tiles (Checked = Checked) D p p (g_sections g') e c /\ ends D e c.
  Proof.
    destruct (FileP.grib2_read_inv Checked f' _ g' HR HL ltac:(cbn [pos]; lia)) as (H & ms & us & W & E & U & X).
    apply (end_iff Checked D p HL HPD) in H. destruct H as (e & c & T & N). exists ms, us, e, c. auto 10.
  Qed.
  Lemma distinct : NoDup (g_sections g') /\ ~ In no_end_section (g_sections g').
  Proof.
    destruct whole_facts as (_ & _ & e & c & _ & _ & _ & _ & T & _). split; [exact (tiles_nodup _ D eq_refl _ _ _ _ _ (proj1 HPD) T)|exact (tiles_no_end _ D _ _ _ _ (proj1 HPD) T)].
  Qed.

  Lemma ok_prefix m fuel sc g : grib2_read m fuel (MkSrc d p sc) = Ret (Ok g) ->
    exists l us, g_sections g' = g_sections g ++ l /\ g_subs g' = g_subs g ++ us.
  Proof.
    intros E. destruct (FileP.grib2_read_inv m fuel _ g E Hld ltac:(cbn [pos]; lia)) as (_ & ms & us & W & Es & U & X).
    destruct (LocalD.file_table_of m fuel d p sc g E Hld Hp) as (e & c & T).
    apply (tiles_left _ d t) in T; [|lia]. destruct whole_facts as (ms' & us' & e' & c' & W' & Es' & U' & X' & T' & N').
    apply (ReaderX.tiles_weaken (Checked = Checked) (m = Checked)) in T'; [|reflexivity].
    destruct (fork_lists _ _ _ _ _ _ _ _ _ _ T T' N') as (r & Er & _).
    assert (Q : flat_map message_sections ms' = flat_map message_sections ms ++ r) by congruence.
    destruct (messages_prefix ms ms' r W W' Q) as (ms2 & -> & ->). destruct (submessages_prefix _ _ _ U _ _ U') as (us2 & ->).
    destruct distinct as (ND & NE). rewrite Er in ND, NE, X'. destruct (indices_prefix _ _ ND NE _ _ X _ _ X') as (ws2 & ->). eauto.
  Qed.
  Lemma ok_clean m fuel g : grib2_read m fuel (MkSrc d p []) = Ret (Ok g) -> cuts_no_message (zlen d) (g_sections g').
  Proof.
    intros E ms x Em Wm Hx H16. destruct (FileP.grib2_read_inv m fuel _ g E Hld ltac:(cbn [pos]; lia)) as (HE & msd & us & W & Es & U & X).
    apply (end_iff m d p Hld Hp) in HE. destruct HE as (e & c & T & N). pose proof T as Td.
    rewrite Es in Td. destruct (after_messages _ _ _ _ _ _ Hp W Td) as (-> & Hc & _).
    apply (tiles_left _ d t) in T; [|lia]. destruct whole_facts as (ms' & us' & e' & c' & W' & Es' & U' & X' & T' & N').
    apply (ReaderX.tiles_weaken (Checked = Checked) (m = Checked)) in T'; [|reflexivity].
    destruct (fork_lists _ _ _ _ _ _ _ _ _ _ T T' N') as (r & Er & Tr).
    assert (Q : flat_map message_sections ms = flat_map message_sections msd ++ r) by congruence.
    destruct (messages_prefix msd ms r W Wm Q) as (ms2 & -> & ->). apply in_app_or in Hx.
    assert (H0 : 0 <= c) by lia. destruct Hx as [Hx|Hx].
    - assert (K : In (ms8 x) (g_sections g)).
      { rewrite Es. apply in_flat_map. exists x. split; [exact Hx|]. unfold message_sections. right. right. apply in_or_app. right. left. reflexivity. }
      rewrite Es in K. pose proof (spans _ _ _ _ _ _ _ (proj1 Hp) Td _ K) as (_ & K2).
      rewrite Forall_forall in Wm. assert (S4 : s_size (ms8 x) = 4).
      { pose proof (tiles_headers _ _ _ _ _ _ _ (proj1 Hp) Td) as F. rewrite Forall_forall in F. destruct (F _ K) as (_ & F8).
        rewrite (proj1 (proj2 (proj2 (Wm x ltac:(apply in_or_app; left; exact Hx))))) in F8. apply F8. }
      lia.
    - exfalso. assert (K : In (ms0 x) (flat_map message_sections ms2)).
      { apply in_flat_map. exists x. split; [exact Hx|]. left. reflexivity. }
      pose proof (spans _ _ _ _ _ _ _ H0 Tr _ K) as (K2 & _). pose proof (tiles_headers _ _ _ _ _ _ _ H0 Tr) as F. rewrite Forall_forall in F. destruct (F _ K) as (F0 & F1).
      rewrite Forall_forall in Wm. rewrite (proj1 (Wm x ltac:(apply in_or_app; right; exact Hx))) in F1. cbn [Z.eqb] in F1. destruct F1 as (_ & F1 & _).
      rewrite octets_left in F1 by lia. inversion N as [_ NM|A B]; [|lia]. apply (NM _ K2). split; [exact F0|]. split; [lia|exact F1].
  Qed.
  Lemma clean_ok m fuel : zlen d < Z.of_nat fuel -> cuts_no_message (zlen d) (g_sections g') -> exists g, grib2_read m fuel (MkSrc d p []) = Ret (Ok g).
  Proof.
    intros Hf C. destruct whole_facts as (ms & us & e' & c' & W & Es & _ & _ & T & N). specialize (C ms). 
    destruct (last_before (zlen d) ms (fun x => C x Es W)) as (a & b & -> & Fa & Hb). apply Forall_app in W. destruct W as (Wa & Wb).
    rewrite Es, flat_map_app in T. pose proof (WordX.tiles_seven _ _ _ _ _ _ T) as S7. apply Forall_app in S7. destruct S7 as (S7 & _).
    apply tiles_app_inv in T. destruct T as (e1 & c1 & Ta & Tb). destruct (after_messages _ _ _ _ _ _ HPD Wa Ta) as (-> & Hc & Hlast).
    assert (Hn : c1 <= zlen d). { destruct Hlast as [->|(x & Hx & ->)]; [lia|]. rewrite Forall_forall in Fa. exact (Fa x Hx). }
    apply (ReadX.read_ok_iff m d p fuel Hld Hp Hf). exists a, c1, c1. split; [exact Wa|].
    split. { apply (ReaderX.tiles_weaken (Checked = Checked) (m = Checked)); [reflexivity|]. apply (tiles_right _ d t); [lia|exact Hn|exact S7|exact Ta]. }
    apply ends_between; [reflexivity|]. intros j Hj M. pose proof M as (_ & M2 & _). apply (magic_left d t j M2) in M. destruct b as [|x b].
    - inversion Tb; subst. inversion N as [_ NM|A B]; [exact (NM j Hj M)|contradiction].
    - cbn [flat_map] in Tb. unfold message_sections in Tb at 1. cbn [app] in Tb. apply tiles_inv in Tb. destruct Tb as (e2 & c2 & T1 & _).
      inversion Wb as [|? ? W1 _]; subst. pose proof (tile_num0 _ _ _ _ _ _ _ T1 (proj1 W1)) as FM. apply (proj2 (proj2 FM) j); [lia|exact M].
  Qed.
  Lemma cut_read m fuel : zlen d < Z.of_nat fuel ->
    match grib2_read m fuel (MkSrc d p []) with
    | Ret (Ok g) => cuts_no_message (zlen d) (g_sections g') /\ exists l us, g_sections g' = g_sections g ++ l /\ g_subs g' = g_subs g ++ us
    | Ret (Err (EParse e)) => ~ cuts_no_message (zlen d) (g_sections g') /\ (e = ReadErrorEof \/ exists k, e = UnexpectedEndOfData k)
    | _ => False
    end.
  Proof.
    intros Hf. set (F := S (Z.to_nat (zlen D))). assert (HF : zlen D < Z.of_nat F) by (subst F; pose proof (zlen_nonneg _ D); lia).
    assert (G : exists g, grib2_read m F (MkSrc D p []) = Ret (Ok g)).
    { apply (ReadX.read_ok_iff m D p F HL HPD HF). destruct whole_facts as (ms & us & e & c & W & Es & _ & _ & T & N). exists ms, e, c. split; [exact W|]. split; [|exact N].
      rewrite Es in T. apply (ReaderX.tiles_weaken (Checked = Checked) (m = Checked)); [reflexivity|exact T]. }
    destruct G as (g0 & G). pose proof (read_left m d t p HL Hp fuel F Hf HF) as RL. pose proof (ok_prefix m fuel []) as OP. pose proof (ok_clean m fuel) as OC. pose proof (clean_ok m fuel Hf) as CO.
    fold D in RL. destruct (grib2_read m fuel (MkSrc d p [])) as [[g|[|x| | | |]]| |]; try contradiction.
    - split; [apply (OC g eq_refl)|apply (OP g eq_refl)].
    - split. { intros C. destruct (CO C) as (g & K). discriminate. }
      destruct RL as [R|[R|R]]; [auto|auto|]. rewrite G in R. discriminate.
    - rewrite G in RL. discriminate.
  Qed.

  (** ** What its submessages show *)
  Lemma view_prefix g l i x : g_sections g' = g_sections g ++ l -> view_section g i = Some x -> view_section g' i = Some x.
  Proof.
    intros E. unfold view_section. rewrite E. unfold get. destruct ((0 <=? i)) eqn:Hi; [|discriminate].
    destruct (nth_error (g_sections g) (Z.to_nat i)) as [s|] eqn:N; [|discriminate]. rewrite nth_error_app1 by (apply nth_error_Some; congruence). rewrite N. auto.
  Qed.
  Lemma cut_views m fuel g : grib2_read m fuel (MkSrc d p []) = Ret (Ok g) -> forall w v, In w (g_subs g) -> make_view g w = Some v ->
    In w (g_subs g') /\ make_view g' w = Some v /\ forall m', decoded_alone m' d v = decoded_alone m' D v.
  Proof.
    intros E w v W V. destruct (ok_prefix m fuel [] g E) as (l & us & El & Eu). assert (W' : In w (g_subs g')) by (rewrite Eu; apply in_or_app; left; exact W).
    assert (V' : make_view g' w = Some v).
    { unfold make_view in *. pose proof (fun i x => view_prefix g l i x El) as VP.
      destruct (view_section g (u_0 w)) as [x0|] eqn:E0; [rewrite (VP _ _ E0)|discriminate]. destruct (view_section g (u_1 w)) as [x1|] eqn:E1; [rewrite (VP _ _ E1)|discriminate].
      destruct (view_section g (u_3 w)) as [x3|] eqn:E3; [rewrite (VP _ _ E3)|discriminate]. destruct (view_section g (u_4 w)) as [x4|] eqn:E4; [rewrite (VP _ _ E4)|discriminate].
      destruct (view_section g (u_5 w)) as [x5|] eqn:E5; [rewrite (VP _ _ E5)|discriminate]. destruct (view_section g (u_6 w)) as [x6|] eqn:E6; [rewrite (VP _ _ E6)|discriminate].
      destruct (view_section g (u_7 w)) as [x7|] eqn:E7; [rewrite (VP _ _ E7)|discriminate]. destruct (view_section g (u_8 w)) as [x8|] eqn:E8; [rewrite (VP _ _ E8)|discriminate].
      rewrite <- V. destruct (u_2 w) as [i|] eqn:E2; [|reflexivity].
      destruct (FileP.grib2_read_inv m fuel _ g E Hld ltac:(cbn [pos]; lia)) as (_ & _ & us0 & _ & _ & _ & X).
      destruct (in_right _ _ _ _ _ X w W) as (u & _ & IX). destruct IX as (_ & _ & _ & _ & O2 & _). rewrite E2 in O2.
      destruct (u_2 u) as [s|]; cbn [opt_entry] in O2; [|contradiction]. pose proof (ContextX.entry_get g s i O2) as VS. rewrite (VP _ _ VS), VS. reflexivity. }
    split; [exact W'|]. split; [exact V'|]. intros m'.
    destruct (FileP.grib2_read_inv m fuel _ g E Hld ltac:(cbn [pos]; lia)) as (_ & ms & us' & Wm & Es & _).
    destruct (LocalD.file_table_of m fuel d p [] g E Hld Hp) as (e & c & T). pose proof T as Td. rewrite Es in Td. destruct (after_messages _ _ _ _ _ _ Hp Wm Td) as (-> & Hc & _).
    assert (Q : forall x, In x (g_sections g) -> same_section D x d x).
    { intros x Hx. split; [reflexivity|]. pose proof (spans _ _ _ _ _ _ _ (proj1 Hp) T x Hx) as (S1 & S2). unfold D. symmetry. apply octets_left; lia. }
    pose proof (ViewX.file_views m fuel _ g E Hld Hp w v W V) as (_ & _ & (I3 & _) & _ & (I5 & _) & (I6 & _) & (I7 & _)).
    apply (LocalD.decode_twins Checked m f' fuel (MkSrc D p []) (MkSrc d p []) g' g HR HL HPD E Hld Hp w v w v W' V' W V); cbn [data]; apply Q; assumption.
  Qed.
End Whole.
