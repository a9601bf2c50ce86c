(** Property theorems C63-C65: whole programs that work with one file. *)
From Coq Require Import Lia.
From Verif Require Import Model.Base Model.Errors Model.Sections Model.Reader Model.Parser Model.Context Model.Decoder Model.Session.
From Verif Require Import Spec.ReaderS Spec.ParserS Spec.ContextS Spec.SessionS.
From Verif Require Proofs.SessionX.
From Verif Require Props.P07_Context.

(** C63: whatever a program does with a file that has been read, with any number of
    iterators and in any order, it sees what [expected] says, in which there is no reader
    and no borrow flag: the submessages [vs] of the file, and for each of them what
    decoding it first thing gives; it panics if it asks for a submessage while another one
    is alive (or if the decoding itself does, or size_hint past the end). *)
Theorem C63_programs : forall m fuel s g, grib2_read m fuel s = Ret (Ok g) -> zlen (data s) < 2 ^ 63 -> 0 <= pos s <= zlen (data s) ->
  exists ms us vs, Forall wf_message ms /\ g_sections g = flat_map message_sections ms /\ submessages_of_all 0 ms us /\
    Forall2 (shows (g_sections g)) us vs /\ zlen vs = g_len g /\
    (forall m' ops, Forall op_ok ops ->
     se_run m' g (se_start g) ops = expected m' vs (decoded_alone m' (data s)) [] [] ops).
Proof. exact SessionX.session. Qed.
Print Assumptions C63_programs.

(** C64: the answers of an iterator (new or cloned) are the ones it would give if it were
    alone, whatever is done with other iterators and submessages in between. *)
Theorem C64_no_interference : forall m fuel s g, grib2_read m fuel s = Ret (Ok g) -> zlen (data s) < 2 ^ 63 -> 0 <= pos s <= zlen (data s) ->
  exists ms us vs, Forall wf_message ms /\ g_sections g = flat_map message_sections ms /\ submessages_of_all 0 ms us /\
    Forall2 (shows (g_sections g)) us vs /\ zlen vs = g_len g /\
    (forall m' pre post l, Forall op_ok (pre ++ post) ->
     se_run m' g (se_start g) (pre ++ post) = Ret l ->
     forall k p, nth_error (places vs [] pre) k = Some p ->
       answers_of k post (skipn (length pre) l) = alone vs p (filter (own k) post)).
Proof. exact SessionX.no_interference. Qed.
Print Assumptions C64_no_interference.

(** C65: decoding a submessage gives the same result whatever was done with the reader
    before (its position, the sizes of its future reads), and keeps the octets. *)
Theorem C65_history : forall m d v s, data s = d ->
  match decoded_alone m d v with
  | Ret r => exists s', decoder_from m s v = Ret (r, s') /\ data s' = d
  | Panic => decoder_from m s v = Panic
  | Diverge => decoder_from m s v = Diverge
  end.
Proof. exact SessionX.decode_history. Qed.
Print Assumptions C65_history.

(** On the file of C45: two iterators and a clone, decoding in between; two submessages at a
    time. *)
Definition ids (r : outcome (list answer)) : list (option (Z * Z)) :=
  match r with
  | Ret l => flat_map (fun a => match a with AView v => [option_map (fun v => (u_mi v, u_si v)) v] | _ => [] end) l
  | _ => []
  end.
Definition sizes (r : outcome (list answer)) : list Z :=
  match r with Ret l => flat_map (fun a => match a with ASize n => [n] | ADecoder (Ok d) => [zlen (d_sect5 d)] | _ => [] end) l | _ => [] end.
Definition ex_ops : list op :=
  [ONew; ONext 0; ODrop 0; ONew; ONext 0; ODecode 1; OClone 0; ONext 1; ODrop 2; ONext 2; ODrop 3; OSize 1; ONext 0; ODrop 4; ONext 2].
Example C63_ex : Forall op_ok ex_ops /\ ids (se_run Checked P07_Context.ex_g (se_start P07_Context.ex_g) ex_ops) =
    [Some (0, 0); Some (0, 1); Some (0, 0); Some (1, 0); Some (1, 0); None] /\
  sizes (se_run Checked P07_Context.ex_g (se_start P07_Context.ex_g) ex_ops) = [7; 2] /\
  se_run Checked P07_Context.ex_g (se_start P07_Context.ex_g) [ONew; ONew; ONext 0; ONext 1] = Panic.
Proof. split; [repeat constructor|]. vm_compute. repeat split. Qed.
Example C64_ex : forall v0 v1 v2, places [v0; v1; v2] [] (firstn 7 ex_ops) = [2; 0; 2]%nat /\
  filter (own 2) (skipn 7 ex_ops) = [ONext 2; ONext 2] /\
  alone [v0; v1; v2] 2 [ONext 2; ONext 2] = [AView (Some v2); AView None].
Proof. intros. vm_compute. repeat split. Qed.
Example C65_ex : match make_view P07_Context.ex_g (nth 1 (g_subs P07_Context.ex_g) (MkSubmessage 0 0 0 0 None 0 0 0 0 0 0)) with
  | Some v => match decoded_alone Checked P07_Context.ex_all v, decoder_from Checked (MkSrc P07_Context.ex_all 77 [1; 2; 1]) v with
              | Ret (Ok d), Ret (Ok d', s') => d' = d /\ d_sect5 d = P07_Context.ex_pl 7 /\ pos s' = 125
              | _, _ => False
              end
  | None => False
  end.
Proof. vm_compute. repeat split. Qed.
