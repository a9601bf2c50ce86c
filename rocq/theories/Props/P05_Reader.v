(** Property theorems C18-C22, C61: the section reader. *)
From Coq Require Import Lia.
From Verif Require Import Model.Base Model.Errors Model.Sections Model.Reader Model.Parser Model.Context.
From Verif Require Import Spec.Bits Spec.ReaderS Spec.Layout.
From Verif Require Proofs.ReaderP Proofs.SectionStreamP Proofs.TableP Proofs.LayoutP Proofs.Progress Proofs.FileP Proofs.ReaderX.

(** A small file for the examples: two octets of junk, then one message with sections
    1, 3, 4, 5, 6, 7, 8, then two octets of junk. *)
Definition ex_payload (n : nat) : list byte := repeat x09 n.
Definition ex_message : raw_message :=
  MkRawMessage [x00; x00] 10
    [MkRaw 1 (ex_payload 16); MkRaw 3 (ex_payload 9); MkRaw 4 (ex_payload 4); MkRaw 5 (ex_payload 6);
     MkRaw 6 [xff]; MkRaw 7 (ex_payload 3)].
Definition ex_file : list byte := file_bytes [([x47; x52], ex_message)] [x01; x02].

(** C18: whatever the source and the sizes its reads return, the sections reported
    before the first error form a section table of the input ... *)
Theorem C18_table_sound : forall m d p sched l it', zlen d < 2 ^ 63 -> 0 <= p <= zlen d ->
  Steps (section_stream m (MkSrc d p sched)) (map Ok l) it' ->
  exists endp cur, tiles (m = Checked) d p p l endp cur.
Proof. exact ReaderX.table_sound. Qed.
Print Assumptions C18_table_sound.

(** C18: ... and a source that fills its buffers reports the whole table. *)
Theorem C18_table_complete : forall m d p l, zlen d < 2 ^ 63 -> 0 <= p <= zlen d ->
  full_table (m = Checked) d p l -> Run (section_stream m (MkSrc d p [])) (map Ok l) End.
Proof. exact TableP.full_table_run. Qed.
Print Assumptions C18_table_complete.

(** C18 in elementary terms: every reported section has its header at its offset;
    sections follow each other without overlap, within a message without gap; and from
    section 0 to section 8 there are exactly the octets section 0 announces. *)
Theorem C18_positions : forall m d p sched l it', zlen d < 2 ^ 63 -> 0 <= p <= zlen d ->
  Steps (section_stream m (MkSrc d p sched)) (map Ok l) it' ->
  Forall (header_at d) l /\
  (forall k x y, nth_error l k = Some x -> nth_error l (S k) = Some y ->
     s_offset x + s_size x <= s_offset y /\ (s_num y <> 0 -> s_offset y = s_offset x + s_size x)) /\
  (forall a x0 mid x8 b, l = a ++ x0 :: mid ++ x8 :: b ->
     Forall (fun x => s_num x <> 0) mid -> s_num x8 = 8 ->
     forall dis total, s_body x0 = Some (B0 dis total) -> s_offset x8 + s_size x8 = s_offset x0 + total).
Proof. exact ReaderX.positions. Qed.
Print Assumptions C18_positions.
Example C18_ex : Run (section_stream Checked (cursor ex_file)) (map Ok (file_table 0 [([x47; x52], ex_message)])) End
  /\ map (fun s => (s_num s, s_offset s, s_size s)) (file_table 0 [([x47; x52], ex_message)])
     = [(0, 2, 16); (1, 18, 21); (3, 39, 14); (4, 53, 9); (5, 62, 11); (6, 73, 6); (7, 79, 8); (8, 87, 4)].
Proof.
  split; [|vm_compute; reflexivity].
  apply TableP.full_table_run; [reflexivity|split; vm_compute; congruence|].
  apply LayoutP.file_full_table; [|apply LayoutP.no_magic_short; repeat constructor|reflexivity].
  repeat constructor; cbn [snd fst]; try (apply LayoutP.no_magic_short; repeat constructor); vm_compute; congruence.
Qed.

(** C19: the search for the next message finds the first "GRIB" that has room for an
    indicator section, however far away; it reports the end of data only if there is
    none, and an error only for the version number of that indicator section. *)
Theorem C19_first_magic : forall d p, zlen d < 2 ^ 63 -> 0 <= p <= zlen d ->
  exists r s', read_sect0 (MkSrc d p []) = Ret (r, s') /\
  match r with
  | Ok None => forall j, p <= j -> ~ magic_at d j
  | Ok (Some (off, b)) => first_magic d p (p + off) /\ pos s' = p + off + 16 /\
      be (octets d (p + off + 7) 1) = 2 /\
      b = B0 (be (octets d (p + off + 6) 1)) (be (octets d (p + off + 8) 8))
  | Err e => exists k v, first_magic d p k /\ be (octets d (k + 7) 1) = v /\ v <> 2 /\ e = GRIBVersionMismatch v
  end.
Proof. exact ReaderX.first_magic_found. Qed.
Print Assumptions C19_first_magic.
(** 4093 octets of junk ending with "GRI": the message lies across the search window. *)
Example C19_ex :
  match read_sect0 (cursor (repeat x47 4090 ++ [x47; x52; x49] ++ message_bytes ex_message)) with
  | Ret (Ok r, s') => r = Some (4093, B0 10 89) /\ pos s' = 4109
  | _ => False
  end.
Proof. vm_compute. split; reflexivity. Qed.

(** C20: sections reported under any read sizes are also reported, in the same places,
    when every read fills its buffer (short reads can only cut the list off) ... *)
Theorem C20_short_reads_truncate : forall m d p sched l it', zlen d < 2 ^ 63 -> 0 <= p <= zlen d ->
  Steps (section_stream m (MkSrc d p sched)) (map Ok l) it' ->
  exists it2, Steps (section_stream m (MkSrc d p [])) (map Ok l) it2.
Proof. exact SectionStreamP.steps_any_schedule. Qed.
Print Assumptions C20_short_reads_truncate.

(** C20: ... every error other than "end of data" too ... *)
Theorem C20_errors_same : forall m d p, zlen d < 2 ^ 63 -> 0 <= p <= zlen d ->
  forall sched l e it', e <> ReadErrorEof ->
  Steps (section_stream m (MkSrc d p sched)) (map Ok l ++ [Err e]) it' ->
  exists it2, Steps (section_stream m (MkSrc d p [])) (map Ok l ++ [Err e]) it2.
Proof. exact ReaderX.error_same. Qed.
Print Assumptions C20_errors_same.

(** C20: ... and every panic. *)
Theorem C20_crash_same : forall m d p, zlen d < 2 ^ 63 -> 0 <= p <= zlen d ->
  forall sched l, Run (section_stream m (MkSrc d p sched)) (map Ok l) Crash ->
  Run (section_stream m (MkSrc d p [])) (map Ok l) Crash.
Proof. exact ReaderX.crash_same. Qed.
Print Assumptions C20_crash_same.

(** C20: the payload octets themselves do not depend on the read sizes. *)
Theorem C20_read_exact : forall d p n sched, 0 <= n -> 0 <= p ->
  exists s', read_exact n (MkSrc d p sched) =
    Ret (if p + n <=? zlen d then Ok (octets d p n) else if n =? 0 then Ok [] else Err ReadErrorEof, s') /\
    (p + n <= zlen d -> pos s' = p + n).
Proof. exact ReaderX.read_exact_any. Qed.
Print Assumptions C20_read_exact.
Example C20_ex :
  match read_exact 5 (MkSrc ex_file 18 [2; 1; 1]) with Ret (Ok l, _) => l | _ => [] end = [x00; x00; x00; x15; x01]
  /\ match next_section Checked (MkSstate (MkSrc ex_file 0 [20; 3]) 0 0) with
     | Ret (Some (Ok s), s') => s = MkSection 0 2 16 (Some (B0 10 89)) /\ sched (st_src s') = [3]
     | _ => False
     end.
Proof. split; [vm_compute; reflexivity|]. vm_compute. split; reflexivity. Qed.

(** C20 (finding): the list is cut off silently: if the first read returns fewer than 16
    octets, no section of the file is reported, without an error. *)
Theorem C20_short_read_silent : forall m d p c sched, 0 <= p -> c < 16 ->
  Run (section_stream m (MkSrc d p (c :: sched))) [] End.
Proof. exact TableP.short_read_empty. Qed.
Print Assumptions C20_short_read_silent.
Example C20_silent_ex : Run (section_stream Checked (MkSrc ex_file 0 [15])) [] End
  /\ Run (section_stream Checked (MkSrc ex_file 0 [])) (map Ok (file_table 0 [([x47; x52], ex_message)])) End.
Proof. split; [apply TableP.short_read_empty; lia|]. exact (proj1 C18_ex). Qed.

(** C21: after the sections [l], the section stream panics if and only if [l] is the table
    of the octets so far and a length field contradicts the lengths around it there
    ([crashes] lists the four kinds) ... *)
Theorem C21_crash_iff : forall m d p, zlen d < 2 ^ 63 -> 0 <= p <= zlen d ->
  forall l, Run (section_stream m (MkSrc d p [])) (map Ok l) Crash <->
  exists endp cur, tiles (m = Checked) d p p l endp cur /\ crashes (m = Checked) d endp cur.
Proof. exact ReaderX.crash_iff. Qed.
Print Assumptions C21_crash_iff.

(** C21: ... and for no other reason however many octets the reads return. *)
Theorem C21_crash_only : forall m d p, zlen d < 2 ^ 63 -> 0 <= p <= zlen d ->
  forall sched l, Run (section_stream m (MkSrc d p sched)) (map Ok l) Crash ->
  exists endp cur, tiles (m = Checked) d p p l endp cur /\ crashes (m = Checked) d endp cur.
Proof. exact ReaderX.crash_any. Qed.
Print Assumptions C21_crash_only.
Definition ex_bad : list byte :=
  [x47; x52; x49; x42; x00; x00; x00; x02; x00; x00; x00; x00; x00; x00; x00; x64] ++ [x00; x00; x00; x04; x01].
Example C21_ex : Run (section_stream Checked (cursor ex_bad)) (map Ok [MkSection 0 0 16 (Some (B0 0 100))]) Crash
  /\ tiles True ex_bad 0 0 [MkSection 0 0 16 (Some (B0 0 100))] 100 16 /\ crashes True ex_bad 100 16.
Proof.
  assert (T : forall P, tiles P ex_bad 0 0 [MkSection 0 0 16 (Some (B0 0 100))] 100 16).
  { intros P. eapply (tiles_0 P ex_bad 0 0 0 100); try (vm_compute; reflexivity).
    - split; [lia|]. split; [|lia]. split; [lia|]. split; vm_compute; congruence.
    - intros _. split; vm_compute; congruence.
    - constructor. }
  assert (C : forall P, crashes P ex_bad 100 16).
  { intros P. apply (crash_size P ex_bad 100 16 4 1); try (vm_compute; reflexivity); try lia.
    vm_compute. congruence. }
  split; [|split; [apply T|apply C]].
  apply (ReaderX.crash_iff Checked ex_bad 0); [reflexivity|split; vm_compute; congruence|].
  exists 100, 16. split; [apply T|apply C].
Qed.

(** C61: after the sections [l] of the table so far, the stream reports the end of the
    data exactly where nothing follows ... *)
Theorem C61_end_iff : forall m d p, zlen d < 2 ^ 63 -> 0 <= p <= zlen d ->
  forall l, Run (section_stream m (MkSrc d p [])) (map Ok l) End <->
  exists endp cur, tiles (m = Checked) d p p l endp cur /\ ends d endp cur.
Proof. exact ReaderX.end_iff. Qed.
Print Assumptions C61_end_iff.

(** C61: ... and the error [e] exactly where the octets have the defect it names. *)
Theorem C61_error_iff : forall m d p, zlen d < 2 ^ 63 -> 0 <= p <= zlen d ->
  forall l e, (exists it', Steps (section_stream m (MkSrc d p [])) (map Ok l ++ [Err e]) it') <->
  exists endp cur, tiles (m = Checked) d p p l endp cur /\ fails (m = Checked) d endp cur e.
Proof. exact ReaderX.error_iff. Qed.
Print Assumptions C61_error_iff.
(** An identification section of 20 octets is one octet too small. *)
Definition ex_short : list byte :=
  [x47; x52; x49; x42; x00; x00; x00; x02; x00; x00; x00; x00; x00; x00; x00; x64] ++ [x00; x00; x00; x14; x01] ++ ex_payload 15.
Example C61_ex : fails True ex_short 100 16 (ReadErrorTooSmall 15) /\
  exists s1 s2, next_section Checked (MkSstate (cursor ex_short) 0 0) = Ret (Some (Ok (MkSection 0 0 16 (Some (B0 0 100)))), s1)
  /\ next_section Checked s1 = Ret (Some (Err (ReadErrorTooSmall 15)), s2).
Proof.
  split.
  - apply (fails_short True ex_short 100 16 20 1); try (vm_compute; reflexivity); try lia; vm_compute; congruence.
  - exists (MkSstate (MkSrc ex_short 16 []) 100 84). eexists. split; vm_compute; reflexivity.
Qed.

(** C22: reading a file terminates on every input, in both build modes: the number of
    submessages is at most the number of octets ([fuel] bounds it; running out of fuel
    would be [Diverge]). *)
Theorem C22_read_terminates : forall m fuel s, zlen (data s) < 2 ^ 63 -> 0 <= pos s ->
  zlen (data s) < Z.of_nat fuel -> grib2_read m fuel s <> Diverge.
Proof. exact FileP.grib2_read_ends. Qed.
Print Assumptions C22_read_terminates.

(** C22: with overflow checks, so does the section stream, after at most as many items
    as there are octets left. *)
Theorem C22_sections_terminate : forall d p sched, zlen d < 2 ^ 63 -> 0 <= p <= zlen d ->
  exists l e, Run (section_stream Checked (MkSrc d p sched)) l e /\ zlen l <= zlen d - p.
Proof. exact ReaderX.sections_end. Qed.
Print Assumptions C22_sections_terminate.
Example C22_ex : grib2_read Checked 94 (cursor ex_file) <> Diverge /\ zlen ex_file < 94
  /\ zlen (g_subs (match grib2_read Checked 94 (cursor ex_file) with Ret (Ok g) => g | _ => MkGrib2 (cursor []) [] [] end)) = 1.
Proof. split; [vm_compute; discriminate|]. split; vm_compute; reflexivity. Qed.

(** C22 (finding): the bare section stream without overflow checks has no such bound: a
    section 7 with length 0 is reported again and again. *)
Definition ex_loop : list byte :=
  [x47; x52; x49; x42; x00; x00; x00; x02; x00; x00; x00; x00; x00; x00; x00; x64] ++ [x00; x00; x00; x00; x07].
Theorem C22_endless : forall n, exists l it', length l = n /\
  Steps (section_stream Wrapping (cursor ex_loop)) l it'.
Proof. exact ReaderX.endless. Qed.
Print Assumptions C22_endless.
