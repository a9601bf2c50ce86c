(** Model of /repo/src/decoder/jpeg2000.rs:49-89 and src/decoder/jpeg2000/ext.rs as calls of the
    OpenJPEG library: which of its objects exist when, and what the library gets to see. *)
From Verif Require Import Model.Base Model.Errors Model.Decoder.

(** A call of the library that reads from the stream: it asks for octets ([null]: without a buffer)
    as often as it likes, depending on what it got, and finishes. *)
Inductive process (A : Type) :=
| Finish (a : A)
| AskFor (null : bool) (nb : N) (k : list byte -> process A).
Arguments Finish {A}. Arguments AskFor {A}.

(** What [opj_read_header] and [opj_decode] leave behind.  A header that was read comes with an image;
    one that was not may. *)
Inductive header_result := HeaderFailed (image : bool) | HeaderRead.
Inductive body_result := BodyFailed | BodyDecoded (i : j2k_image).

(** A library: whether [opj_stream_default_create] and [opj_create_decompress] return an object (or
    NULL), whether [opj_setup_decoder] returns 1, and the two calls that read. *)
Record library := MkLibrary {
  lib_stream : bool; lib_codec : bool; lib_setup : bool;
  lib_header : process header_result; lib_body : process body_result
}.

(** The objects: the stream, its user data (ext.rs:37-40, a [Box]), the codec, the image. *)
Inductive obj := OStream | OUser | OCodec | OImage.
Inductive event := Create (o : obj) | Use (o : obj) | Destroy (o : obj).

(** A call that reads: each request goes to src/decoder/jpeg2000/ext.rs:48-74 [opj_stream_read_fn],
    with the user data; a stream that could not be created has none, and nothing is delivered. *)
Fixpoint run_process {A} (m : mode) (stream : bool) (buf : list byte) (offset : Z) (p : process A)
  : list event * outcome (A * Z) :=
  match p with
  | Finish a => ([], Ret (a, offset))
  | AskFor null nb k =>
      if stream then
        match opj_stream_read m buf offset null (Z.of_N nb) with
        | Ret (out, offset') =>
            let '(evs, r) := run_process m stream buf offset' (k out) in (Use OUser :: evs, r)
        | Panic => ([Use OUser], Panic)
        | Diverge => ([Use OUser], Diverge)
        end
      else run_process m stream buf offset (k [])
  end.

(** ext.rs:27-33, 42-44 [Drop for Stream]: [opj_stream_destroy] calls
    [opj_stream_free_user_data_fn]; NULL is ignored. *)
Definition drop_stream (stream : bool) : list event := if stream then [Destroy OUser; Destroy OStream] else [].
(** ext.rs:97-103 [Drop for Codec]. *)
Definition drop_codec : list event := [Destroy OCodec].
(** ext.rs:118-126 [Drop for Image]; NULL is ignored. *)
Definition drop_image (image : bool) : list event := if image then [Destroy OImage] else [].
Definition use_stream (stream : bool) : list event := if stream then [Use OStream] else [].

(** ext.rs:35-95 [Stream::from_bytes]: the user data, the stream, three settings of it. *)
Definition stream_from_bytes (stream : bool) : list event :=
  [Create OUser] ++ (if stream then [Create OStream; Use OStream; Use OStream; Use OStream] else []).

(** The image after decoding (jpeg2000.rs:72-88): it is read and, on the way out, whether the
    arithmetic panics or not, destroyed. *)
Definition image_part (m : mode) (i : j2k_image) : list event * outcome (result (list Z) j2k_error) :=
  ([Use OImage] ++ drop_image true, j2k_samples m i).

(** jpeg2000.rs:40-41, 49-89: [Stream::from_bytes] and [decode_jp2].  What is still alive when the
    function returns is dropped in the reverse order of its creation, the argument [stream] last. *)
Definition opj_decode (lib : library) (m : mode) (buf : list byte)
  : list event * outcome (result (list Z) j2k_error) :=
  let stream := lib_stream lib in
  let created := stream_from_bytes stream in
  if negb (lib_codec lib) then (created ++ drop_stream stream, Ret (Err DecoderSetupError))
  else
    let codec := created ++ [Create OCodec; Use OCodec] in
    if negb (lib_setup lib) then (codec ++ drop_codec ++ drop_stream stream, Ret (Err DecoderSetupError))
    else
      let '(evs, h) := run_process m stream buf 0 (lib_header lib) in
      let header := codec ++ use_stream stream ++ [Use OCodec] ++ evs in
      match h with
      | Ret (HeaderFailed image, _) =>
          (header ++ (if image then [Create OImage] else []) ++ drop_image image ++ drop_codec ++ drop_stream stream,
           Ret (Err MainHeaderReadError))
      | Ret (HeaderRead, offset) =>
          let '(evs', b) := run_process m stream buf offset (lib_body lib) in
          let body := header ++ [Create OImage] ++ [Use OCodec] ++ use_stream stream ++ [Use OImage] ++ evs' in
          match b with
          | Ret (BodyFailed, _) =>
              (body ++ drop_image true ++ drop_codec ++ drop_stream stream, Ret (Err BodyReadError))
          | Ret (BodyDecoded i, _) =>
              let '(evs'', r) := image_part m i in
              (body ++ drop_codec ++ drop_stream stream ++ evs'', r)
          | Panic => (body, Panic)
          | Diverge => (body, Diverge)
          end
      | Panic => (header, Panic)
      | Diverge => (header, Diverge)
      end.
