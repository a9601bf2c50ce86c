(** Model of /repo/src/parser.rs: section order validation and the two submessage
    streams, over an arbitrary source of sections. *)
From Verif Require Import Model.Base Model.Errors Model.Sections.

(** What a section source yields. *)
Notation item := (result section parse_error).

(** src/parser.rs:519-524 [Grib2SubmessageValidatorState].  [EndOfSect] carries
    only the values 0..7 (the [unreachable!()] of line 514 is [Panic] here). *)
Inductive vstate := StartOfMessage | StartOfSubmessage | EndOfSect (n : Z) | EndOfStream.

(** src/parser.rs:305-315 [Grib2SubmessageValidator<I>]: the [Peekable] slot holds
    [Some r] when [r] has been peeked; [v_count] is [Enumerate]'s counter.  Counters
    are unbounded integers: they count sections, fewer than 2^64. *)
Record validator (S : Type) := MkV {
  v_src : S;
  v_count : Z;
  v_peeked : option (option (Z * item));
  v_pos : Z;
  v_mc : Z;
  v_smc : Z;
  v_state : vstate;
  v_has3 : bool
}.
Arguments MkV {S}. Arguments v_src {S}. Arguments v_count {S}. Arguments v_peeked {S}.
Arguments v_pos {S}. Arguments v_mc {S}. Arguments v_smc {S}. Arguments v_state {S}.
Arguments v_has3 {S}.

(** A submessage: message index, submessage index, sections 0-8.
    src/parser.rs:5-15 [Submessage] with the two counters returned beside it
    ([C := section]) and src/datatypes.rs:8-19 [Grib2SubmessageIndex] ([C := Z]). *)
Record submessage (C : Type) := MkSubmessage {
  u_mi : Z; u_si : Z;
  u_0 : C; u_1 : C; u_2 : option C; u_3 : C; u_4 : C; u_5 : C; u_6 : C; u_7 : C; u_8 : C
}.
Arguments MkSubmessage {C}.
Arguments u_mi {C}. Arguments u_si {C}. Arguments u_0 {C}. Arguments u_1 {C}. Arguments u_2 {C}.
Arguments u_3 {C}. Arguments u_4 {C}. Arguments u_5 {C}. Arguments u_6 {C}. Arguments u_7 {C}.
Arguments u_8 {C}.

Section Over.
  Context {S : Type} (step : S -> outcome (option item * S)).
  Notation V := (validator S).

  (** Items of the validator: position, message index, submessage index, section. *)
  Notation vitem := (result (Z * Z * Z * section) parse_error).

  Definition set_src (v : V) (s : S) c pk : V := MkV s c pk (v_pos v) (v_mc v) (v_smc v) (v_state v) (v_has3 v).
  Definition set_pos (v : V) p : V := MkV (v_src v) (v_count v) (v_peeked v) p (v_mc v) (v_smc v) (v_state v) (v_has3 v).
  Definition set_state (v : V) st : V := MkV (v_src v) (v_count v) (v_peeked v) (v_pos v) (v_mc v) (v_smc v) st (v_has3 v).
  Definition set_has3 (v : V) h : V := MkV (v_src v) (v_count v) (v_peeked v) (v_pos v) (v_mc v) (v_smc v) (v_state v) h.

  (** [Enumerate::next] on the source. *)
  Definition enum_next (v : V) : outcome (option (Z * item) * V) :=
    let! r := step (v_src v) in
    match r with
    | (None, s) => Ret (None, set_src v s (v_count v) (v_peeked v))
    | (Some x, s) => Ret (Some (v_count v, x), set_src v s (v_count v + 1) (v_peeked v))
    end.

  (** [Peekable::next] *)
  Definition pk_next (v : V) : outcome (option (Z * item) * V) :=
    match v_peeked v with
    | Some r => Ret (r, set_src v (v_src v) (v_count v) None)
    | None => enum_next v
    end.

  (** [Peekable::peek] *)
  Definition pk_peek (v : V) : outcome (option (Z * item) * V) :=
    match v_peeked v with
    | Some r => Ret (r, v)
    | None => let! r := enum_next v in
              let '(x, v') := r in Ret (x, set_src v' (v_src v') (v_count v') (Some x))
    end.

  (** src/parser.rs:321-330 [Grib2SubmessageValidator::new]. *)
  Definition v_new (s : S) : V := MkV s 0 None 0 0 0 StartOfMessage false.

  (** src/parser.rs:332-337 [reinitialize_message]. *)
  Definition reinitialize_message (v : V) : V :=
    MkV (v_src v) (v_count v) (v_peeked v) (v_pos v) (v_mc v) 0 StartOfMessage false.

  (** src/parser.rs:339-367: every error ends the stream. *)
  Definition v_err (v : V) (e : parse_error) : outcome (option vitem * V) :=
    Ret (Some (Err e), set_state v EndOfStream).
  Definition v_ok (v : V) (s : section) : outcome (option vitem * V) :=
    Ret (Some (Ok (v_pos v, v_mc v, v_smc v, s)), v).

  (** src/parser.rs:374-389 [ensure_next_is_sect0]. *)
  Definition ensure_sect0 (v : V) : outcome (option vitem * V) :=
    let! r := pk_next v in
    match r with
    | (None, v) => Ret (None, v)
    | (Some (p, Ok s), v) =>
        let v := set_pos v p in
        if s_num s =? 0 then v_ok (set_state v (EndOfSect 0)) s
        else v_err v (InvalidSectionOrder (v_pos v))
    | (Some (_, Err e), v) => v_err v e
    end.

  (** src/parser.rs:392-421 [ensure_next_is_sect_2_or_3_or_4]. *)
  Definition ensure_sect_2_or_3_or_4 (v : V) : outcome (option vitem * V) :=
    let! r := pk_next v in
    match r with
    | (Some (p, Ok s), v) =>
        let v := set_pos v p in
        if s_num s =? 2 then v_ok (set_state v (EndOfSect 2)) s
        else if s_num s =? 3 then v_ok (set_has3 (set_state v (EndOfSect 3)) true) s
        else if s_num s =? 4 then
          if v_has3 v then v_ok (set_state v (EndOfSect 4)) s
          else v_err v (NoGridDefinition (v_pos v))
        else v_err v (InvalidSectionOrder (v_pos v))
    | (Some (_, Err e), v) => v_err v e
    | (None, v) => v_err v (UnexpectedEndOfData (v_pos v))
    end.

  (** src/parser.rs:425-468 [ensure_next_is_sect8]. *)
  Definition ensure_sect8 (v : V) : outcome (option vitem * V) :=
    let! pk := pk_peek v in
    match pk with
    | (Some (_, Err _), v) =>
        let! r := pk_next v in
        match r with
        | (Some (_, Err e), v) => v_err v e
        | _ => Panic
        end
    | (Some (_, Ok s0), v) =>
        if s_num s0 =? 8 then
          let! r := pk_next v in
          match r with
          | (Some (p, Ok s), v) =>
              let v := set_pos v p in
              let ret := Some (Ok (v_pos v, v_mc v, v_smc v, s)) in
              let v := MkV (v_src v) (v_count v) (v_peeked v) (v_pos v) (v_mc v + 1) (v_smc v)
                           (v_state v) (v_has3 v) in
              Ret (ret, reinitialize_message v)
          | _ => Panic
          end
        else
          let ret := Some (Ok (0, v_mc v, v_smc v, new_8 0)) in
          Ret (ret, MkV (v_src v) (v_count v) (v_peeked v) (v_pos v) (v_mc v) (v_smc v + 1)
                        StartOfSubmessage (v_has3 v))
    | (None, v) => v_err v (UnexpectedEndOfData (v_pos v))
    end.

  (** src/parser.rs:470-487 [ensure_next_is_sect_num]. *)
  Definition ensure_sect_num (v : V) (num : Z) : outcome (option vitem * V) :=
    let! r := pk_next v in
    match r with
    | (Some (p, Ok s), v) =>
        let v := set_pos (set_state v (EndOfSect num)) p in
        if s_num s =? num then v_ok v s else v_err v (InvalidSectionOrder (v_pos v))
    | (Some (_, Err e), v) => v_err v e
    | (None, v) => v_err v (UnexpectedEndOfData (v_pos v))
    end.

  (** src/parser.rs:496-515 [Iterator::next] of the validator. *)
  Definition v_next (v : V) : outcome (option vitem * V) :=
    match v_state v with
    | EndOfStream => Ret (None, v)
    | StartOfMessage => ensure_sect0 v
    | StartOfSubmessage => ensure_sect_2_or_3_or_4 v
    | EndOfSect n =>
        match n with
        | 0 => ensure_sect_num v 1
        | 1 => ensure_sect_2_or_3_or_4 v
        | 2 => ensure_sect_num (set_has3 v true) 3
        | 3 => ensure_sect_num v 4
        | 4 => ensure_sect_num v 5
        | 5 => ensure_sect_num v 6
        | 6 => ensure_sect_num v 7
        | 7 => ensure_sect8 v
        | _ => Panic
        end
    end.

  (** ** Grib2SubmessageStream: the value-producing stream (src/parser.rs:69-79) *)
  Record vsub := MkVsub {
    vs_v : V; vs_0 : section; vs_1 : section; vs_2 : option section; vs_3 : section
  }.

  (** src/parser.rs:109-114 [clear_message_cache]. *)
  Definition vs_clear (b : vsub) : vsub :=
    MkVsub (vs_v b) default_section default_section None default_section.

  (** src/parser.rs:123-183: the [loop] of [next]; [c4]..[c7] are its local variables.
      [num] outside 0..8 is [unreachable!()]. *)
  Fixpoint vsub_loop (fuel : nat) (b : vsub) (c4 c5 c6 c7 : section)
    : outcome (option (result (submessage section) parse_error) * vsub) :=
    match fuel with
    | O => Diverge
    | Datatypes.S fuel' =>
        let! r := v_next (vs_v b) in
        match r with
        | (None, v) => Ret (None, MkVsub v (vs_0 b) (vs_1 b) (vs_2 b) (vs_3 b))
        | (Some (Err e), v) => Ret (Some (Err e), MkVsub v (vs_0 b) (vs_1 b) (vs_2 b) (vs_3 b))
        | (Some (Ok (p, mc, smc, s)), v) =>
            match s_num s with
            | 0 => vsub_loop fuel' (MkVsub v s (vs_1 b) (vs_2 b) (vs_3 b)) c4 c5 c6 c7
            | 1 => vsub_loop fuel' (MkVsub v (vs_0 b) s (vs_2 b) (vs_3 b)) c4 c5 c6 c7
            | 2 => vsub_loop fuel' (MkVsub v (vs_0 b) (vs_1 b) (Some s) (vs_3 b)) c4 c5 c6 c7
            | 3 => vsub_loop fuel' (MkVsub v (vs_0 b) (vs_1 b) (vs_2 b) s) c4 c5 c6 c7
            | 4 => vsub_loop fuel' (MkVsub v (vs_0 b) (vs_1 b) (vs_2 b) (vs_3 b)) s c5 c6 c7
            | 5 => vsub_loop fuel' (MkVsub v (vs_0 b) (vs_1 b) (vs_2 b) (vs_3 b)) c4 s c6 c7
            | 6 => vsub_loop fuel' (MkVsub v (vs_0 b) (vs_1 b) (vs_2 b) (vs_3 b)) c4 c5 s c7
            | 7 => vsub_loop fuel' (MkVsub v (vs_0 b) (vs_1 b) (vs_2 b) (vs_3 b)) c4 c5 c6 s
            | 8 =>
                let ret := Some (Ok (MkSubmessage mc smc (vs_0 b) (vs_1 b) (vs_2 b) (vs_3 b)
                                                  c4 c5 c6 c7 s)) in
                let b' := MkVsub v (vs_0 b) (vs_1 b) (vs_2 b) (vs_3 b) in
                (* "if pos is 0, it is dummy" *)
                if p =? 0 then Ret (ret, b') else Ret (ret, vs_clear b')
            | _ => Panic
            end
        end
    end.

  (** One call of [next] makes at most nine turns of the loop, so fuel ten is never
      exhausted (proved). *)
  Definition vsub_next (b : vsub) :=
    vsub_loop 10 b default_section default_section default_section default_section.

  (** src/parser.rs:99-107 [Grib2SubmessageStream::new]. *)
  Definition vsub_new (s : S) : vsub :=
    MkVsub (v_new s) default_section default_section None default_section.

  (** ** Grib2SubmessageIndexStream: the index-producing stream (src/parser.rs:186-196).
      [is_log] is the section cache [sect_cacher], always present here as in
      src/context.rs:237, most recent section first. *)
  Record isub := MkIsub {
    is_v : V; is_log : list section; is_0 : Z; is_1 : Z; is_2 : option Z; is_3 : Z
  }.

  (** src/parser.rs:218-222 [cache_sect]. *)
  Definition is_cache (b : isub) (s : section) : isub :=
    MkIsub (is_v b) (s :: is_log b) (is_0 b) (is_1 b) (is_2 b) (is_3 b).

  (** src/parser.rs:224-229 [clear_message_cache]. *)
  Definition is_clear (b : isub) : isub := MkIsub (is_v b) (is_log b) 0 0 None 0.

  (** src/parser.rs:238-302: the [loop] of [next]. *)
  Fixpoint isub_loop (fuel : nat) (b : isub) (c4 c5 c6 c7 : Z)
    : outcome (option (result (submessage Z) parse_error) * isub) :=
    match fuel with
    | O => Diverge
    | Datatypes.S fuel' =>
        let! r := v_next (is_v b) in
        match r with
        | (None, v) => Ret (None, MkIsub v (is_log b) (is_0 b) (is_1 b) (is_2 b) (is_3 b))
        | (Some (Err e), v) => Ret (Some (Err e), MkIsub v (is_log b) (is_0 b) (is_1 b) (is_2 b) (is_3 b))
        | (Some (Ok (p, mc, smc, s)), v) =>
            let b := MkIsub v (is_log b) (is_0 b) (is_1 b) (is_2 b) (is_3 b) in
            match s_num s with
            | 0 => let b := is_cache b s in
                   isub_loop fuel' (MkIsub v (is_log b) p (is_1 b) (is_2 b) (is_3 b)) c4 c5 c6 c7
            | 1 => let b := is_cache b s in
                   isub_loop fuel' (MkIsub v (is_log b) (is_0 b) p (is_2 b) (is_3 b)) c4 c5 c6 c7
            | 2 => let b := is_cache b s in
                   isub_loop fuel' (MkIsub v (is_log b) (is_0 b) (is_1 b) (Some p) (is_3 b)) c4 c5 c6 c7
            | 3 => let b := is_cache b s in
                   isub_loop fuel' (MkIsub v (is_log b) (is_0 b) (is_1 b) (is_2 b) p) c4 c5 c6 c7
            | 4 => isub_loop fuel' (is_cache b s) p c5 c6 c7
            | 5 => isub_loop fuel' (is_cache b s) c4 p c6 c7
            | 6 => isub_loop fuel' (is_cache b s) c4 c5 p c7
            | 7 => isub_loop fuel' (is_cache b s) c4 c5 c6 p
            | 8 =>
                let ret := Some (Ok (MkSubmessage mc smc (is_0 b) (is_1 b) (is_2 b) (is_3 b)
                                                  c4 c5 c6 c7 p)) in
                if p =? 0 then Ret (ret, b) else Ret (ret, is_clear (is_cache b s))
            | _ => Panic
            end
        end
    end.

  Definition isub_next (b : isub) := isub_loop 10 b 0 0 0 0.

  (** src/parser.rs:202-216 [new] and [with_cacher] with an empty vector. *)
  Definition isub_new (s : S) : isub := MkIsub (v_new s) [] 0 0 None 0.
End Over.

(** The two streams as iterators over an iterator of sections. *)
Definition submessage_stream (it : iter item) : iter (result (submessage section) parse_error) :=
  MkIter vsub (vsub_new (icur it)) (vsub_next (istep it)).
Definition submessage_index_stream (it : iter item) : iter (result (submessage Z) parse_error) :=
  MkIter isub (isub_new (icur it)) (isub_next (istep it)).
