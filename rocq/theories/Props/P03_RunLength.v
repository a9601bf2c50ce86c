(** Property theorems C12-C14: run-length packing. *)
From Coq Require Import Reals Floats.SpecFloat.
From Flocq Require Import Core.Core.
From Verif Require Import Model.Base Model.Errors Model.F32 Model.RunLength Spec.Bits Spec.FloatS Spec.RunLengthS.
From Verif Require Proofs.RunLengthP Proofs.RunLengthX Proofs.LevelX.
Local Open Scope Z_scope.

(** C12: any sequence of runs, encoded with codes of 1 to 15 bits and packed, decodes to
    the points it stands for, unless the octet padding is as long as a code: then the
    padding is taken for another code and the data are rejected.
    (1 <= n <= 15; codes of 16 bits and more are below.) *)
Theorem C12_roundtrip : forall m (n : nat) maxv runs, (1 <= n <= 15)%nat -> 0 <= maxv -> maxv + 1 < 2 ^ Z.of_nat n ->
  Forall (run_ok (Z.of_nat n) maxv) runs ->
  let codes := flat_map (run_codes maxv) runs in
  let levels := flat_map (expand (base (Z.of_nat n) maxv)) runs in
  let padding := (- (Z.of_nat n * zlen codes)) mod 8 in
  rleunpack m (pack n codes) (Z.of_nat n) maxv (Some (zlen levels)) =
    Ret (if padding <? Z.of_nat n then Ok levels else Err RleLengthMismatch).
Proof. exact RunLengthX.roundtrip. Qed.
Print Assumptions C12_roundtrip.
(** The JMA sample: 4-bit codes, MV = 10, so runs count in base 5. *)
Definition ex_runs : list run := [(3, []); (9, [1]); (6, []); (4, [4]); (2, []); (1, []); (0, [2; 1]); (2, []); (3, [])].
Example C12_roundtrip_ex :
  Forall (run_ok 4 10) ex_runs
  /\ flat_map (run_codes 10) ex_runs = [3; 9; 12; 6; 4; 15; 2; 1; 0; 13; 12; 2; 3]
  /\ flat_map (expand (base 4 10)) ex_runs = [3; 9; 9; 6; 4; 4; 4; 4; 4; 2; 1; 0; 0; 0; 0; 0; 0; 0; 0; 2; 3]
  /\ (- (8 * zlen (flat_map (run_codes 10) ex_runs))) mod 8 < 8
  /\ 4 <= (- (4 * zlen (flat_map (run_codes 10) ex_runs))) mod 8
  /\ rleunpack Checked (pack 4 (flat_map (run_codes 10) ex_runs)) 4 10 (Some 21) = Ret (Err RleLengthMismatch).
Proof.
  split; [|split; [vm_compute; reflexivity|split; [vm_compute; reflexivity|split; [vm_compute; reflexivity|split; [vm_compute; congruence|vm_compute; reflexivity]]]]].
  repeat constructor; vm_compute; congruence.
Qed.

(** C12: codes of 16 bits or more always panic in builds with overflow checks. *)
Theorem C12_wide_codes_panic : forall input nbit maxv len, 16 <= nbit -> rleunpack Checked input nbit maxv len = Panic.
Proof. exact RunLengthX.wide_panic. Qed.
Print Assumptions C12_wide_codes_panic.

(** C12: and without overflow checks the base of 16-bit codes is off by one: a run of 4
    points with level 5 decodes to 5 points. *)
Theorem C12_sixteen_bits_release : exists runs maxv,
  0 <= maxv /\ maxv + 1 < 2 ^ 16 /\ Forall (run_ok 16 maxv) runs
  /\ flat_map (expand (base 16 maxv)) runs = repeat 5 4
  /\ rleunpack Wrapping (pack 16 (flat_map (run_codes maxv) runs)) 16 maxv None = Ret (Ok (repeat 5 5)).
Proof. exact RunLengthP.rle_16_bits_wrong. Qed.
Print Assumptions C12_sixteen_bits_release.

(** C12: the value of a level: NaN for level 0; otherwise, to 2^-20, the level's entry x * 10^-D for
    decimal scale factors D of 0 to 38, and 0 for larger octets, which include all negative factors
    (sign in the most significant bit). *)
Theorem C12_values : forall scale levels l, 0 <= scale < 256 -> Forall (fun x => 0 <= x < 2 ^ 16) levels -> 0 <= l <= zlen levels ->
  let v := level_value scale levels l in let x := IZR (nth (Z.to_nat (l - 1)) levels 0) in
  (l = 0 -> v = f32_nan) /\
  (1 <= l -> scale <= 38 -> finite v /\ (Rabs (val v - x * powerRZ 10 (- scale)) <= bpow radix2 (-20) * (x * powerRZ 10 (- scale)))%R) /\
  (1 <= l -> 39 <= scale -> v = S754_zero false).
Proof. exact LevelX.level_real. Qed.
Print Assumptions C12_values.
(** Level 2 of 100, 200, 300 with D = 1 is 20; with D = -1 (octet 0x81) it is 0. *)
Example C12_values_ex : level_value 1 [100; 200; 300] 2 = f32_of_Z 20 /\ level_value 0x81 [100; 200; 300] 2 = S754_zero false.
Proof. vm_compute. split; reflexivity. Qed.

(** C13: the complete outcome of decoding, for every data section and level table. *)
Theorem C13_decode_exact : forall m input np n maxv scale levels tail count,
  1 <= n <= 15 -> 0 <= maxv -> maxv + 1 < 2 ^ n -> 0 <= scale < 256 ->
  zlen levels < 2 ^ 16 -> Forall (fun v => 0 <= v < 2 ^ 16) levels ->
  let L := base n maxv in
  let '(lead, runs) := split_runs maxv (codes_of input n) in
  let points := flat_map (expand L) runs in
  runs_ok L runs ->
  rle_decode m (sect5_rle np n maxv scale levels tail) input count =
    Ret (match lead with
         | _ :: _ => Err (EDecode (RunLengthError InvalidFirstValue))
         | [] =>
             if negb (count =? zlen points) then Err (EDecode (RunLengthError RleLengthMismatch))
             else match find (fun l => zlen levels <? l) points with
                  | Some l => Err (EDecode (RunLengthError (InvalidLevelValue l)))
                  | None => Ok (map (level_value scale levels) points)
                  end
         end).
Proof. exact RunLengthP.rle_decode_exact. Qed.
Print Assumptions C13_decode_exact.
Example C13_decode_exact_ex :
  split_runs 10 (codes_of [x39; xc6] 4) = ([], [(3, []); (9, [1]); (6, [])])
  /\ runs_ok (base 4 10) [(3, []); (9, [1]); (6, [])]
  /\ fst (split_runs 10 (codes_of [xc3] 4)) = [1]
  /\ rle_decode Checked (sect5_rle 4 4 10 1 [100; 200; 300] []) [x01; x30] 4
     = Ret (Ok (map (level_value 1 [100; 200; 300]) [0; 1; 3; 0]))
  /\ rle_decode Checked (sect5_rle 4 4 10 1 [100; 200; 300] []) [x04; x50] 4
     = Ret (Err (EDecode (RunLengthError (InvalidLevelValue 4)))).
Proof.
  split; [vm_compute; reflexivity|]. split; [repeat constructor|].
  split; [vm_compute; reflexivity|]. split; vm_compute; reflexivity.
Qed.

(** C14: exactly when decoding never ends (no amount of fuel suffices): the bit width
    is 0, the data section is not empty, and the maximum is 0, or, in builds without
    overflow checks, anything below 65535.  In all other cases it finishes. *)
Theorem C14_terminates : forall m input nbit maxv len, 0 <= nbit -> 0 <= maxv < 2 ^ 16 ->
  (nbit = 0 /\ input <> [] /\ (maxv = 0 \/ m = Wrapping /\ maxv < 65535) ->
     forall fuel, rleunpack_fuel fuel m input nbit maxv len = Diverge) /\
  (~ (nbit = 0 /\ input <> [] /\ (maxv = 0 \/ m = Wrapping /\ maxv < 65535)) ->
     rleunpack m input nbit maxv len <> Diverge).
Proof. exact RunLengthX.diverges. Qed.
Print Assumptions C14_terminates.
Example C14_terminates_ex :
  rleunpack Wrapping [xff; x12; x34] 12 1 None = Ret (Err InvalidFirstValue)
  /\ rleunpack Wrapping [x00] 0 1 None = Diverge /\ rleunpack Checked [x00] 0 1 None = Panic
  /\ rleunpack Checked [x00] 0 0 None = Diverge /\ rleunpack Checked [] 0 0 None = Ret (Ok []).
Proof. repeat split; vm_compute; reflexivity. Qed.
