(** Property theorems C94: a message taken out of a file. *)
From Coq Require Import Lia ZifyBool.
From Verif Require Import Model.Base Model.Errors Model.Sections Model.Reader Model.Parser Model.Context Model.Decoder.
From Verif Require Import Spec.ReaderS Spec.ParserS Spec.SessionS Spec.JoinS.
From Verif Require Proofs.SplitF.
From Verif Require Import Props.P07_Context.

(** C94: in a file that can be read (where overflow is checked), the octets of a message, from its "GRIB" on and as
    many as its section 0 says, are a file with that message's sections alone, which has the submessages that
    the file lists for the message. *)
Theorem C94_read : forall d f g, grib2_read Checked f (MkSrc d 0 []) = Ret (Ok g) -> zlen d < 2 ^ 63 ->
  forall before after x dis total, Forall wf_message (before ++ x :: after) -> g_sections g = flat_map message_sections (before ++ x :: after) ->
  s_body (ms0 x) = Some (B0 dis total) ->
  let o := s_offset (ms0 x) in
  forall m fuel, total < Z.of_nat fuel ->
  exists g', grib2_read m fuel (MkSrc (octets d o total) 0 []) = Ret (Ok g') /\ g_sections g' = map (moved (- o)) (message_sections x) /\
    filter (fun w => u_mi w =? zlen before) (g_subs g) = map (renumbered (zlen before) (zlen (flat_map message_sections before))) (g_subs g').
Proof. exact SplitF.read_alone. Qed.
Print Assumptions C94_read.
(** C94: they decode to the same values. *)
Theorem C94_decode : forall d f g, grib2_read Checked f (MkSrc d 0 []) = Ret (Ok g) -> zlen d < 2 ^ 63 ->
  forall before after x dis total, Forall wf_message (before ++ x :: after) -> g_sections g = flat_map message_sections (before ++ x :: after) ->
  s_body (ms0 x) = Some (B0 dis total) ->
  let o := s_offset (ms0 x) in let a := zlen before in let b := zlen (flat_map message_sections before) in
  forall m fuel, total < Z.of_nat fuel ->
  forall g', grib2_read m fuel (MkSrc (octets d o total) 0 []) = Ret (Ok g') -> forall w v, In w (g_subs g') -> make_view g' w = Some v ->
  exists e, make_view g (renumbered a b w) = Some (moved_view a b o e v) /\
    forall m', decoded_alone m' d (moved_view a b o e v) = decoded_alone m' (octets d o total) v.
Proof. exact SplitF.values_alone. Qed.
Print Assumptions C94_decode.

(** The second message of the example file. *)
Definition ex_at (i : nat) : section := nth i (g_sections ex_g) no_end_section.
Definition ex_before : message := MkMessage (ex_at 0) (ex_at 1)
  [MkGroup (Some (ex_at 2)) (Some (ex_at 3)) (ex_at 4) (ex_at 5) (ex_at 6) (ex_at 7); MkGroup None None (ex_at 8) (ex_at 9) (ex_at 10) (ex_at 11)] (ex_at 12).
Definition ex_second : message := MkMessage (ex_at 13) (ex_at 14) [MkGroup None (Some (ex_at 15)) (ex_at 16) (ex_at 17) (ex_at 18) (ex_at 19)] (ex_at 20).
Example C94_ex_meets : grib2_read Checked 300 (MkSrc ex_all 0 []) = Ret (Ok ex_g) /\ zlen ex_all < 2 ^ 63 /\
  Forall wf_message ([ex_before] ++ ex_second :: []) /\ g_sections ex_g = flat_map message_sections ([ex_before] ++ ex_second :: []) /\
  exists dis, s_body (ms0 ex_second) = Some (B0 dis 88) /\ s_offset (ms0 ex_second) = 130.
Proof.
  split; [vm_compute; reflexivity|]. split; [vm_compute; reflexivity|]. split; [|split; [vm_compute; reflexivity|eexists; split; vm_compute; reflexivity]].
  assert (H : forall i n, s_num (ex_at i) =? n = true -> s_num (ex_at i) = n) by (intros i n E; apply Z.eqb_eq; exact E).
  assert (G : forall g2 g3 i j k l, match g2 with Some n => s_num (ex_at n) = 2 | None => True end -> match g3 with Some n => s_num (ex_at n) = 3 | None => True end -> g2 = None \/ g3 <> None ->
    s_num (ex_at i) = 4 -> s_num (ex_at j) = 5 -> s_num (ex_at k) = 6 -> s_num (ex_at l) = 7 ->
    wf_group (MkGroup (option_map ex_at g2) (option_map ex_at g3) (ex_at i) (ex_at j) (ex_at k) (ex_at l))).
  { intros [g2|] [g3|] i j k l A2 A3 A23 A4 A5 A6 A7; unfold wf_group; cbn [gr2 gr3 gr4 gr5 gr6 gr7 opt_num option_map]; intuition congruence. }
  repeat constructor; cbn [ms0 ms1 ms8 groups ex_before ex_second]; try (apply H; vm_compute; reflexivity).
  - apply (G (Some 2%nat) (Some 3%nat) 4%nat 5%nat 6%nat 7%nat); try (right; discriminate); apply H; vm_compute; reflexivity.
  - apply (G None None 8%nat 9%nat 10%nat 11%nat); auto; apply H; vm_compute; reflexivity.
  - eexists _, _. split; [reflexivity|discriminate].
  - apply (G None (Some 15%nat) 16%nat 17%nat 18%nat 19%nat); auto; apply H; vm_compute; reflexivity.
  - eexists _, _. split; [reflexivity|discriminate].
Qed.
Example C94_ex : match from_slice Checked 100 (octets ex_all 130 88) with
  | Ret (Ok g) => g_len g = 1 /\ map u_mi (g_subs g) = [0] /\ g_sections g = map (moved (- 130)) (skipn 13 (g_sections ex_g)) | _ => False end.
Proof. vm_compute. repeat split. Qed.
