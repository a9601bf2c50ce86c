(** Specifications for the tools: decimal numbers, code tables, output files. *)
From Coq Require Import Strings.String.
From Verif Require Import Model.Base Model.F32 Model.Decoder.

(** A non-empty string of ASCII digits, and the number it denotes. *)
Definition digits (s : list byte) : Prop := s <> [] /\ Forall (fun b => 48 <= bz b <= 57) s.
Definition decimal (s : list byte) : Z := fold_left (fun a b => 10 * a + (bz b - 48)) s 0.

(** A message index N.M. *)
Definition index_string (s a b : list byte) : Prop := digits a /\ digits b /\ s = a ++ [x2e] ++ b.

(** A code range [lo..hi]: N, or N-M followed by anything that does not continue the number. *)
Inductive range_string : list byte -> Z -> Z -> Prop :=
| range_one : forall a, digits a -> range_string a (decimal a) (decimal a)
| range_two : forall a b r, digits a -> digits b -> (forall c r', r = c :: r' -> ~ 48 <= bz c <= 57) ->
    range_string (a ++ [x2d] ++ b ++ r) (decimal a) (decimal b).

(** Floats in a file: four octets each, most significant first, or least significant first. *)
Fixpoint read_floats (f : list byte -> Z) (n : nat) (l : list byte) : list f32 :=
  match n with
  | O => []
  | S n' => f32_of_bits (f (firstn 4 l)) :: read_floats f n' (skipn 4 l)
  end.
Definition be_floats (l : list byte) : list f32 := read_floats be (length l / 4) l.
Definition le_floats (l : list byte) : list f32 := read_floats (fun x => be (rev x)) (length l / 4) l.

(** ** Code tables: rows of a code range and a description *)
Notation row := (list byte * list byte)%type.

(** Descriptions that stand for "no description". *)
Definition no_description (d : list byte) : Prop :=
  In d (map list_byte_of_string
    ["Future versions"; "Reserved"; "Reserved for local use"; "Reserved for other centres"; "Missing"; "Missing value"; ")"]%string).

(** The table describes the code [c] by [d]. *)
Definition describes (rows : list row) (c : Z) (d : list byte) : Prop :=
  exists id lo hi, In (id, d) rows /\ range_string id lo hi /\ lo <= c <= hi /\ ~ no_description d.

(** Ranges are not reversed; numbers are moderate. *)
Definition rows_ok (rows : list row) : Prop :=
  zlen rows < 2 ^ 31 /\ forall id d lo hi, In (id, d) rows -> range_string id lo hi -> lo <= hi < 2 ^ 32.

(** The ranges of the table follow each other without gaps, from code [c] up to code [e - 1];
    rows whose first column is no range do not matter. *)
Inductive consecutive : Z -> list row -> Z -> Prop :=
| cons_nil : forall c, consecutive c [] c
| cons_other : forall c id d rows e, (forall lo hi, ~ range_string id lo hi) -> consecutive c rows e ->
    consecutive c ((id, d) :: rows) e
| cons_range : forall c id d hi rows e, range_string id c hi -> c <= hi -> consecutive (hi + 1) rows e ->
    consecutive c ((id, d) :: rows) e.

(** Some code after [c] is described. *)
Definition described_after (rows : list row) (c : Z) : Prop := exists c' d, c < c' /\ describes rows c' d.

(** ** The stream handed to the JPEG 2000 library: a history of calls of the read callback,
    each with a buffer of [nb] octets or without a buffer; the octets each call delivers. *)
Inductive reads (m : mode) (buf : list byte) : Z -> list (bool * Z) -> list (list byte) -> Prop :=
| reads_nil : forall off, reads m buf off [] []
| reads_cons : forall off null nb out off' calls outs,
    opj_stream_read m buf off null nb = Ret (out, off') -> reads m buf off' calls outs ->
    reads m buf off ((null, nb) :: calls) (out :: outs).

(** What the calls have to deliver, [rest] being the octets not yet delivered. *)
Fixpoint deliveries (rest : list byte) (calls : list (bool * Z)) : list (list byte) :=
  match calls with
  | [] => []
  | (true, _) :: calls' => [] :: deliveries rest calls'
  | (false, nb) :: calls' => firstn (Z.to_nat nb) rest :: deliveries (skipn (Z.to_nat nb) rest) calls'
  end.

(** Words with colons between them. *)
Fixpoint join (ws : list (list byte)) : list byte :=
  match ws with
  | [] => []
  | [w] => w
  | w :: ws' => w ++ [x3a] ++ join ws'
  end.
(** A word: no colon in it.  A number of a table line: at most [max]. *)
Definition word (w : list byte) : Prop := ~ In x3a w.
Definition number (max : Z) (w : list byte) : Prop := digits w /\ decimal w <= max.
