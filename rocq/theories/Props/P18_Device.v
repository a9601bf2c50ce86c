(** Property theorems C78: devices that fail. *)
From Coq Require Import Lia Strings.String.
From Verif Require Import Model.Base Model.Errors Model.Sections Model.Reader Model.Parser Model.Context Model.Decoder Model.Device.
From Verif Require Import Spec.SessionS Spec.TablesS Spec.DeviceS.
From Verif Require Proofs.DeviceX.
From Verif Require Props.P07_Context.

(** C78: reading a file from a device whose calls may fail, in any way and at any time: either the
    result is the one of the same octets on a device that does not fail, and then no call failed
    except for interruptions; or one call failed and its error is the result. *)
Theorem C78_read : forall m fuel d,
  (exists used rest, d_plan d = used ++ rest /\ Forall harmless used /\
     match grib2_read m fuel (d_src d) with
     | Ret (Ok g) => dev_read m fuel d = Ret (Ok (on_device g rest))
     | Ret (Err e) => dev_read m fuel d = Ret (Err e)
     | Panic => dev_read m fuel d = Panic
     | Diverge => dev_read m fuel d = Diverge
     end) \/
  (exists used f rest e, d_plan d = used ++ Some f :: rest /\ Forall harmless used /\ reports f e /\ dev_read m fuel d = Ret (Err (EParse e))).
Proof. exact DeviceX.read_faults. Qed.
Print Assumptions C78_read.

(** C78: ... the first call asks for the position, and its error says so. *)
Theorem C78_first : forall m fuel s f rest, (0 < fuel)%nat ->
  dev_read m fuel (MkDev s (Some f :: rest)) = Ret (Err (EParse (ReadErrorIo (text "resetting the initial position failed: " ++ fault_text f)))).
Proof. exact DeviceX.first_fault. Qed.
Print Assumptions C78_first.

(** C78: the section stream: what it has returned, however often it was called, is what it returns
    on a device that does not fail, up to the first failure, which it returns. *)
Theorem C78_sections : forall m d l a, SSteps (dnext_section m) (MkDstate d 0 0) l a ->
  (exists s, SSteps (next_section m) (MkSstate (d_src d) 0 0) l s) \/
  (exists l1 e l2 s used f rest, l = l1 ++ Err e :: l2 /\ SSteps (next_section m) (MkSstate (d_src d) 0 0) l1 s /\
     d_plan d = used ++ Some f :: rest /\ Forall harmless used /\ reports f e).
Proof. exact DeviceX.stream_faults. Qed.
Print Assumptions C78_sections.

(** C78: setting up a decoder, whatever was done with the device before: what it is on a device that
    does not fail, or the error of the call that failed; the octets are still there, ... *)
Theorem C78_decode : forall m d v,
  (exists used rest s', d_plan d = used ++ rest /\ Forall harmless used /\ data s' = data (d_src d) /\
     match decoded_alone m (data (d_src d)) v with
     | Ret r => dev_decoder_from m d v = Ret (r, MkDev s' rest)
     | Panic => dev_decoder_from m d v = Panic
     | Diverge => dev_decoder_from m d v = Diverge
     end) \/
  (exists used f rest s', d_plan d = used ++ Some f :: rest /\ Forall harmless used /\ data s' = data (d_src d) /\
     dev_decoder_from m d v = Ret (Err (EParse (ReadErrorIo (fault_text f))), MkDev s' rest)).
Proof. exact DeviceX.decode_faults. Qed.
Print Assumptions C78_decode.
(** C78: ... so a failure does no harm to later attempts: each of them has the right answer or an
    error of the device. *)
Theorem C78_attempts : forall m vs d answers, attempts m d vs = Ret answers ->
  Forall2 (fun v r => decoded_alone m (data (d_src d)) v = Ret r \/ exists f, In (Some f) (d_plan d) /\ r = Err (EParse (ReadErrorIo (fault_text f)))) vs answers.
Proof. exact DeviceX.attempts_faults. Qed.
Print Assumptions C78_attempts.

(** The file of C45 on a device that fails at its tenth call, on one that is interrupted while it
    reads a payload (nothing happens) and on one that is interrupted while it reads a header (an
    error, although trying again would do). *)
Definition ex_dev (plan : list (option fault)) : dev := MkDev (cursor P07_Context.ex_all) plan.
Definition ex_eio : list byte := text "Input/output error".
Definition ex_eintr : list byte := text "Interrupted system call".
Definition ex_answer (r : outcome (result dev_grib2 grib_error)) : Z + option grib_error :=
  match r with Ret (Ok g) => inl (zlen (dg_subs g)) | Ret (Err e) => inr (Some e) | _ => inr None end.
Example C78_ex :
  ex_answer (dev_read Checked 300 (ex_dev [])) = inl 3 /\
  ex_answer (dev_read Checked 300 (ex_dev (repeat None 9 ++ [Some (Broken ex_eio)]))) = inr (Some (EParse (ReadErrorIo ex_eio))) /\
  ex_answer (dev_read Checked 300 (ex_dev (repeat None 4 ++ repeat (Some (Interrupted ex_eintr)) 5))) = inl 3 /\
  ex_answer (dev_read Checked 300 (ex_dev (repeat None 3 ++ [Some (Interrupted ex_eintr)]))) = inr (Some (EParse (ReadErrorIo ex_eintr))).
Proof. vm_compute. repeat split; reflexivity. Qed.
(** Decoding its second submessage three times: the device fails during the first attempt. *)
Definition ex_view : list view :=
  match g_subs P07_Context.ex_g with _ :: u :: _ => match make_view P07_Context.ex_g u with Some v => [v] | None => [] end | _ => [] end.
Example C78_attempts_ex : length ex_view = 1%nat /\
  match attempts Checked (ex_dev [None; Some (Broken ex_eio)]) (ex_view ++ ex_view ++ ex_view) with
  | Ret [Err (EParse (ReadErrorIo w)); Ok a; Ok b] => w = ex_eio /\ a = b /\ zlen (d_sect5 a) = 7
  | _ => False
  end.
Proof. vm_compute. repeat split; reflexivity. Qed.
