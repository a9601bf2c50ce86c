(** Property theorems C27, C28, C30, C31, C45, C62: whole files. *)
From Coq Require Import Lia Sorting.Sorted Sorting.Permutation.
From Verif Require Import Model.Base Model.Errors Model.Sections Model.Reader Model.Parser Model.Context.
From Verif Require Import Spec.ReaderS Spec.ParserS Spec.ReadS Spec.ContextS Spec.Layout.
From Verif Require Proofs.LayoutP Proofs.FileP2 Proofs.ReadX Proofs.ContextX Proofs.BoundX.

(** A file for the examples: junk, a message with two submessages (the second one without
    sections 2, 3), junk, a message with one submessage, junk. *)
Definition ex_pl (n : nat) : list byte := repeat x09 n.
Definition ex_f : list (list byte * raw_message) :=
  [([x47; x52], MkRawMessage [x00; x00] 10
      [MkRaw 1 (ex_pl 16); MkRaw 2 []; MkRaw 3 (ex_pl 9); MkRaw 4 (ex_pl 4); MkRaw 5 (ex_pl 6); MkRaw 6 [xff]; MkRaw 7 (ex_pl 3);
       MkRaw 4 (ex_pl 5); MkRaw 5 (ex_pl 7); MkRaw 6 [x00]; MkRaw 7 []]);
   ([x01], MkRawMessage [x00; x00] 0
      [MkRaw 1 (ex_pl 16); MkRaw 3 (ex_pl 9); MkRaw 4 (ex_pl 4); MkRaw 5 (ex_pl 6); MkRaw 6 [xff]; MkRaw 7 [x01; x02]])].
Definition ex_ns : list (list (list Z)) := [[[2; 3; 4; 5; 6; 7]; [4; 5; 6; 7]]; [[3; 4; 5; 6; 7]]].
Definition ex_tail : list byte := [x37; x47].
Definition ex_all : list byte := file_bytes ex_f ex_tail.
Definition ex_g : grib2 := match from_slice Checked 300 ex_all with Ret (Ok g) => g | _ => MkGrib2 (cursor []) [] [] end.
Example ex_read : from_slice Checked 300 ex_all = Ret (Ok ex_g) /\ zlen ex_all = 220 /\ zlen (g_sections ex_g) = 21 /\ g_len ex_g = 3.
Proof. vm_compute. repeat split. Qed.

(** C45: a file made of well-formed messages with octets around them that do not contain
    "GRIB" is read; its section table is the one of the layout and it has the submessages
    of its messages, with the right positions. *)
Theorem C45_files : forall m fuel f ns tail,
  Forall (fun p => no_magic (fst p) /\ message_ok (snd p)) f -> no_magic tail ->
  Forall2 (fun p gs => grib_order (snd p) gs) f ns ->
  zlen (file_bytes f tail) < 2 ^ 63 -> zlen (file_bytes f tail) < Z.of_nat fuel ->
  exists g ms us, from_slice m fuel (file_bytes f tail) = Ret (Ok g) /\ g_sections g = file_table 0 f /\
    Forall wf_message ms /\ flat_map message_sections ms = file_table 0 f /\
    submessages_of_all 0 ms us /\ Forall2 (indexes (file_table 0 f)) us (g_subs g) /\
    length (g_subs g) = list_sum (map (@length _) ns).
Proof. exact FileP2.read_file. Qed.
Print Assumptions C45_files.
Example C45_ex :
  (Forall (fun p => no_magic (fst p) /\ message_ok (snd p)) ex_f /\ no_magic ex_tail) /\
  Forall2 (fun p gs => grib_order (snd p) gs) ex_f ex_ns /\ list_sum (map (@length _) ex_ns) = 3%nat /\
  map (fun s => (s_num s, s_offset s, s_size s)) (g_sections ex_g) =
  [(0, 2, 16); (1, 18, 21); (2, 39, 5); (3, 44, 14); (4, 58, 9); (5, 67, 11); (6, 78, 6); (7, 84, 8); (4, 92, 10); (5, 102, 12); (6, 114, 6); (7, 120, 5); (8, 125, 4);
   (0, 130, 16); (1, 146, 21); (3, 167, 14); (4, 181, 9); (5, 190, 11); (6, 201, 6); (7, 207, 7); (8, 214, 4)].
Proof.
  split; [split|].
  - repeat constructor; cbn [snd fst]; try (apply LayoutP.no_magic_short; repeat constructor); vm_compute; congruence.
  - apply LayoutP.no_magic_short; repeat constructor.
  - split; [|vm_compute; split; reflexivity]. repeat constructor; unfold grib_order.
    all: cbn [snd m_sections map r_num concat app]; try reflexivity.
    all: eexists _, _; split; [reflexivity|]; unfold first_groups, later_groups; cbn [In]; split; auto 6.
Qed.

(** C62: what reading octets [d] from position [p] returns, for all octets.  It succeeds
    if and only if they are a sequence of well-formed messages ... *)
Theorem C62_read_ok_iff : forall m d p fuel, zlen d < 2 ^ 63 -> 0 <= p <= zlen d -> zlen d < Z.of_nat fuel ->
  (exists g, grib2_read m fuel (MkSrc d p []) = Ret (Ok g)) <->
  exists ms endp cur, Forall wf_message ms /\
    tiles (m = Checked) d p p (flat_map message_sections ms) endp cur /\ ends d endp cur.
Proof. exact ReadX.read_ok_iff. Qed.
Print Assumptions C62_read_ok_iff.

(** C62: ... it panics if and only if, after well-formed messages and the well-formed
    beginning of another one, a length field contradicts the lengths around it ... *)
Theorem C62_read_crash_iff : forall m d p fuel, zlen d < 2 ^ 63 -> 0 <= p <= zlen d -> zlen d < Z.of_nat fuel ->
  grib2_read m fuel (MkSrc d p []) = Panic <->
  exists ms pre endp cur, Forall wf_message ms /\ viable pre /\
    tiles (m = Checked) d p p (flat_map message_sections ms ++ pre) endp cur /\ crashes (m = Checked) d endp cur.
Proof. exact ReadX.read_crash_iff. Qed.
Print Assumptions C62_read_crash_iff.

(** C62: ... and it returns the error [e] if and only if, after such a beginning, a
    section comes that may not follow, a defect or the end of the data, and [e] is the
    error for that place.  There is no fourth outcome (C22). *)
Theorem C62_read_error_iff : forall m d p fuel, zlen d < 2 ^ 63 -> 0 <= p <= zlen d -> zlen d < Z.of_nat fuel ->
  forall e, grib2_read m fuel (MkSrc d p []) = Ret (Err (EParse e)) <->
  exists ms pre rest endp cur, Forall wf_message ms /\ viable pre /\
    tiles (m = Checked) d p p (flat_map message_sections ms ++ pre) endp cur /\
    comes (m = Checked) d endp cur rest /\ broken pre rest /\
    order_error pre (zlen (flat_map message_sections ms ++ pre)) rest e.
Proof. exact ReadX.read_error_iff. Qed.
Print Assumptions C62_read_error_iff.
(** The example file; cut off in the middle of a header, and at the end of a section;
    with a wrong end section, and with a section length of 3. *)
Example C62_ex :
  match from_slice Checked 300 ex_all with Ret (Ok g) => g_len g = 3 | _ => False end /\
  from_slice Checked 300 (firstn 110 ex_all) = Ret (Err (EParse ReadErrorEof)) /\
  from_slice Checked 300 (firstn 120 ex_all) = Ret (Err (EParse (UnexpectedEndOfData 10))) /\
  from_slice Checked 300 (firstn 125 ex_all ++ [x37; x37; x37; x38]) = Ret (Err (EParse EndSectionMismatch)) /\
  from_slice Checked 300 (firstn 120 ex_all ++ [x00; x00; x00; x03; x07]) = Panic.
Proof. vm_compute. repeat split. Qed.

(** C27: asking for submessages one after the other gives each submessage of the file
    once, in file order, [len()] of them, then [None] for good. *)
Theorem C27_iteration : forall m fuel s g, grib2_read m fuel s = Ret (Ok g) -> zlen (data s) < 2 ^ 63 -> 0 <= pos s ->
  exists ms us vs, Forall wf_message ms /\ g_sections g = flat_map message_sections ms /\ submessages_of_all 0 ms us /\
    Forall2 (shows (g_sections g)) us vs /\ zlen vs = g_len g /\
    run_calls g 0 false (next_drop (length vs) ++ [CNext; CNext]) = Ret (map Some vs ++ [None; None]).
Proof. exact ContextX.iteration. Qed.
Print Assumptions C27_iteration.

(** C27: what any sequence of [next], [nth] and dropping views gives.  (Finding: [nth(n)]
    counts from the start of the file, not from the position of the iterator.) *)
Theorem C27_calls : forall m fuel s g, grib2_read m fuel s = Ret (Ok g) -> zlen (data s) < 2 ^ 63 -> 0 <= pos s ->
  exists ms us vs, Forall wf_message ms /\ g_sections g = flat_map message_sections ms /\ submessages_of_all 0 ms us /\
    Forall2 (shows (g_sections g)) us vs /\ zlen vs = g_len g /\
    forall cs, Forall (fun c => match c with CNth n => 0 <= n | _ => True end) cs ->
      run_calls g 0 false cs = match answers vs 0 false cs with Some l => Ret l | None => Panic end.
Proof. exact ContextX.calls. Qed.
Print Assumptions C27_calls.

(** C27: size_hint at position [k] of the iterator.  (Finding: it panics, or is huge, once
    [nth] has moved the iterator past the end.) *)
Theorem C27_size_hint : forall m g k, 0 <= k < 2 ^ 64 -> g_len g < 2 ^ 64 ->
  sub_iter_size m g k =
  if k <=? g_len g then Ret (g_len g - k) else match m with Checked => Panic | Wrapping => Ret (2 ^ 64 + g_len g - k) end.
Proof. exact ContextX.size_all. Qed.
Print Assumptions C27_size_hint.
(** C27: how many messages and submessages there can be: a message takes at least 55 octets, and
    26 more for each submessage. *)
Theorem C27_bound : forall m fuel s g, grib2_read m fuel s = Ret (Ok g) -> zlen (data s) < 2 ^ 63 -> 0 <= pos s <= zlen (data s) ->
  exists ms us, Forall wf_message ms /\ g_sections g = flat_map message_sections ms /\ submessages_of_all 0 ms us /\ zlen us = g_len g /\
    55 * zlen ms + 26 * g_len g <= zlen (data s) - pos s.
Proof. exact BoundX.file_bound. Qed.
Print Assumptions C27_bound.
Definition which (r : outcome (list (option view))) : list (option (Z * Z)) :=
  match r with Ret l => map (option_map (fun v => (u_mi v, u_si v))) l | _ => [] end.
Example C27_ex : which (run_calls ex_g 0 false (next_drop 3 ++ [CNext; CNext])) = [Some (0, 0); Some (0, 1); Some (1, 0); None; None]
  /\ which (run_calls ex_g 0 false (next_drop 1 ++ [CNth 0])) = [Some (0, 0); Some (0, 0)]
  /\ match sub_iter_nth ex_g 5 0 false with Ret (None, 5, false) => True | _ => False end.
Proof. vm_compute. repeat split. Qed.

(** C28: a program that drops each view before asking for the next one never panics; one
    that does not, panics at the next view. *)
Theorem C28_exclusive : forall m fuel s g, grib2_read m fuel s = Ret (Ok g) -> zlen (data s) < 2 ^ 63 -> 0 <= pos s ->
  (forall cs, disciplined false cs -> Forall (fun c => match c with CNth n => 0 <= n | _ => True end) cs ->
     exists l, run_calls g 0 false cs = Ret l) /\
  (forall k cs, Z.of_nat k + 2 <= g_len g -> run_calls g 0 false (next_drop k ++ CNext :: CNext :: cs) = Panic) /\
  (forall k n cs, Z.of_nat k + 1 <= g_len g -> 0 <= n < g_len g -> run_calls g 0 false (next_drop k ++ CNext :: CNth n :: cs) = Panic).
Proof. exact ContextX.exclusive. Qed.
Print Assumptions C28_exclusive.
Example C28_ex : disciplined false [CNext; CDrop; CNth 2; CDrop; CNext; CNext] = (false = false /\ false = false /\ false = false /\ true = false /\ True)
  /\ run_calls ex_g 0 false [CNext; CNext] = Panic
  /\ which (run_calls ex_g 0 false [CNext; CDrop; CNth 2; CDrop; CNext]) = [Some (0, 0); Some (1, 0); None].
Proof. vm_compute. repeat split. Qed.

(** C30: the template list of a file, whatever the order of iteration of the hash set. *)
Theorem C30_templates : forall m fuel s g order, grib2_read m fuel s = Ret (Ok g) -> zlen (data s) < 2 ^ 63 -> 0 <= pos s <= zlen (data s) ->
  (forall l, Permutation (order l) l) ->
  exists l, get_templates order (g_sections g) = Ret l /\ StronglySorted tmpl_lt l /\
    forall c, In c l <-> exists s, In s (g_sections g) /\ template_of s c.
Proof. exact ContextX.file_templates. Qed.
Print Assumptions C30_templates.
Example C30_ex : get_templates (@rev _) (g_sections ex_g) = Ret [(3, 2313); (4, 2313); (5, 2313)]
  /\ forall l : list (Z * Z), Permutation (rev l) l.
Proof. split; [vm_compute; reflexivity|]. intros. apply Permutation_sym, Permutation_rev. Qed.

(** C31: the payload of any section of a file that has been read, re-read after any
    history (any position of the reader), is the octets of the section; a section of a file
    read with overflow checks is at least as long as its header. *)
Theorem C31_reread : forall m fuel s g, grib2_read m fuel s = Ret (Ok g) -> zlen (data s) < 2 ^ 63 -> 0 <= pos s <= zlen (data s) ->
  forall x, In x (g_sections g) -> 1 <= s_num x <= 7 -> 5 <= s_size x ->
  s_offset x + s_size x <= zlen (data s) /\
  forall m' p sc, exists s', reread m' (MkSrc (data s) p sc) x = Ret (Ok (octets (data s) (s_offset x + 5) (s_size x - 5)), s') /\ data s' = data s.
Proof. exact ContextX.file_reread. Qed.
Print Assumptions C31_reread.
Theorem C31_sizes : forall fuel s g, grib2_read Checked fuel s = Ret (Ok g) -> zlen (data s) < 2 ^ 63 -> 0 <= pos s <= zlen (data s) ->
  forall x, In x (g_sections g) -> 1 <= s_num x <= 7 -> 5 <= s_size x.
Proof. exact ContextX.file_sizes. Qed.
Print Assumptions C31_sizes.
Theorem C31_headers : forall m fuel s g, grib2_read m fuel s = Ret (Ok g) -> zlen (data s) < 2 ^ 63 -> 0 <= pos s <= zlen (data s) ->
  Forall (header_at (data s)) (g_sections g).
Proof. exact ContextX.file_sections_headers. Qed.
Print Assumptions C31_headers.
Example C31_ex : match nth_error (g_sections ex_g) 19 with
  | Some x => match reread Checked (MkSrc ex_all 1000 [1; 1]) x with Ret (Ok l, _) => l = [x01; x02] | _ => False end
  | None => False
  end.
Proof. vm_compute. reflexivity. Qed.
