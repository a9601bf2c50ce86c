(** Model of the parts of Rust's std::fmt and str that the tools use: numbers as text,
    padding, splitting.  A [&str] is the list of its octets (UTF-8). *)
From Verif Require Import Model.Base Model.Tools.

(** [Display] of an unsigned integer (std's decimal conversion). *)
Fixpoint dec_loop (fuel : nat) (n : Z) (acc : list byte) : list byte :=
  match fuel with
  | O => acc
  | S fuel' =>
      let acc' := zb (48 + n mod 10) :: acc in
      if n <? 10 then acc' else dec_loop fuel' (n / 10) acc'
  end.
Definition show_uint (n : Z) : list byte := dec_loop (S (Z.to_nat (Z.log2 n))) n [].
(** [Display] of a signed integer. *)
Definition show_int (n : Z) : list byte := if n <? 0 then x2d :: show_uint (- n) else show_uint n.

(** [{:016x}]: 16 hexadecimal digits of a [usize]. *)
Definition hex_digit (d : Z) : byte := zb (if d <? 10 then 48 + d else 87 + d).
Fixpoint hex_loop (k : nat) (n : Z) (acc : list byte) : list byte :=
  match k with O => acc | S k' => hex_loop k' (n / 16) (hex_digit (n mod 16) :: acc) end.
Definition show_hex16 (n : Z) : list byte := hex_loop 16 n [].

(** The number of characters of a UTF-8 string: octets that do not continue a character. *)
Definition chars (s : list byte) : Z := zlen (filter (fun b => negb ((128 <=? bz b) && (bz b <? 192))) s).
(** [{:>w}] and [{:<w}] of a string: never cut, padded with spaces. *)
Definition pad_left (w : Z) (s : list byte) : list byte := repeat x20 (Z.to_nat (w - chars s)) ++ s.
Definition pad_right (w : Z) (s : list byte) : list byte := s ++ repeat x20 (Z.to_nat (w - chars s)).

(** [s.split(", ")]: at a string of two characters. *)
Fixpoint split_on2 (a b : Z) (s : list byte) : list (list byte) :=
  match s with
  | [] => [[]]
  | x :: s1 =>
      let keep := match split_on2 a b s1 with w :: ws => (x :: w) :: ws | [] => [[x]] end in
      match s1 with
      | y :: s2 => if (bz x =? a) && (bz y =? b) then [] :: split_on2 a b s2 else keep
      | [] => keep
      end
  end.

(** [str::lines]: at line feeds; nothing after the last one.  (It also removes a carriage
    return before a line feed; whoever uses it here applies [trim_end] next, which does.) *)
Fixpoint lines (s : list byte) : list (list byte) :=
  match s with
  | [] => []
  | b :: s' =>
      if bz b =? 10 then [] :: lines s'
      else match lines s' with
           | w :: ws => match s' with
                        | [] => [[b]]
                        | _ => (b :: w) :: ws
                        end
           | [] => [[b]]
           end
  end.

(** [str::trim_end], for strings whose last characters are ASCII: space, and the control
    characters 9-13.  (Other white space of Unicode at the end of a line is not modelled.) *)
Definition is_white (b : byte) : bool := (bz b =? 32) || ((9 <=? bz b) && (bz b <=? 13)).
Fixpoint trim_start (s : list byte) : list byte :=
  match s with b :: s' => if is_white b then trim_start s' else s | [] => [] end.
Definition trim_end (s : list byte) : list byte := rev (trim_start (rev s)).
