(** Specification for the calls of the JPEG 2000 library. *)
From Verif Require Import Model.Base Model.Errors Model.Decoder Model.Opj.

Definition about (o : obj) (e : event) : bool :=
  match o, (match e with Create x | Use x | Destroy x => x end) with
  | OStream, OStream | OUser, OUser | OCodec, OCodec | OImage, OImage => true
  | _, _ => false
  end.
(** What happens to one object: nothing at all, or it is created, used any number of times and
    destroyed, once. *)
Definition clean (o : obj) (log : list event) : Prop :=
  filter (about o) log = [] \/ exists n, filter (about o) log = Create o :: repeat (Use o) n ++ [Destroy o].
(** ... or it is never destroyed. *)
Definition leaked (o : obj) (log : list event) : Prop := exists n, filter (about o) log = Create o :: repeat (Use o) n.

(** The user data are only used while the stream exists. *)
Definition inside (o o' : obj) (log : list event) : Prop :=
  forall pre post, log = pre ++ Use o :: post -> In (Create o') pre /\ In (Destroy o') post.

(** A process that is given the octets of [rest], in order, as many as it asks for as long as there
    are any: what it finishes with, and the octets left. *)
Fixpoint served {A} (rest : list byte) (p : process A) : A * list byte :=
  match p with
  | Finish a => (a, rest)
  | AskFor true _ k => served rest (k [])
  | AskFor false nb k => served (skipn (N.to_nat nb) rest) (k (firstn (N.to_nat nb) rest))
  end.
(** The image a library makes of some octets, or which of its calls failed. *)
Definition image_of (lib : library) (octets : list byte) : result j2k_image j2k_error :=
  if lib_codec lib && lib_setup lib then
    match served (if lib_stream lib then octets else []) (lib_header lib) with
    | (HeaderFailed _, _) => Err MainHeaderReadError
    | (HeaderRead, rest) =>
        match fst (served rest (lib_body lib)) with BodyFailed => Err BodyReadError | BodyDecoded i => Ok i end
    end
  else Err DecoderSetupError.
