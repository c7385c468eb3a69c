(** * Specifications for [ColorModel.v]: digits and the numbers they denote *)
From Coq Require Import Ascii List Arith.
Import ListNotations.

(** the sixteen digits *)
Definition digits : list ascii := ["0"; "1"; "2"; "3"; "4"; "5"; "6"; "7"; "8"; "9"; "a"; "b"; "c"; "d"; "e"; "f"]%char.

(** the digit of a number below sixteen, and the number that digits denote *)
Definition digit_of (d : nat) : ascii := nth d digits "0"%char.
Fixpoint denoted (ds : list nat) : nat := match ds with [] => 0 | d :: r => d * 16 ^ length r + denoted r end.
(** a character that stands for the number [d]: its digit, or this digit as a big letter *)
Definition big_digits : list ascii := ["0"; "1"; "2"; "3"; "4"; "5"; "6"; "7"; "8"; "9"; "A"; "B"; "C"; "D"; "E"; "F"]%char.
Definition stands_for (c : ascii) (d : nat) : Prop := nth_error digits d = Some c \/ nth_error big_digits d = Some c.
