(** * Model of src/polymesh/utils/colors.py; strings are lists of characters *)
From Coq Require Import Ascii.
From Verif Require Export Base.

(** digits of the builtin format [%x] *)
Definition hex_char (d : nat) : ascii := if Nat.ltb d 10 then ascii_of_nat (48 + d) else ascii_of_nat (87 + d).
Fixpoint hex_digits (fuel n : nat) : list ascii :=
  match fuel with
  | 0 => []
  | S fuel => if Nat.ltb n 16 then [hex_char n] else hex_digits fuel (n / 16) ++ [hex_char (n mod 16)]
  end.
(** the builtin format [%02x]: filled up with zeros to two characters; numbers that are not negative *)
Definition format_02x (n : nat) : list ascii := let d := hex_digits (S n) n in repeat "0"%char (2 - length d) ++ d.

(** rgb_to_hex, 4-14: ["%02x%02x%02x" % rgb] raises if the tuple does not have three entries *)
Definition rgb_to_hex (rgb : list nat) : res (list ascii) :=
  match rgb with
  | [r; g; b] => Ok (format_02x r ++ format_02x g ++ format_02x b)
  | _ => Err TypeError
  end.

(** the builtin [int(s, 16)] of a string of digits.  (The builtin also accepts signs, blanks at the ends, a prefix 0x and underscores
    between digits: all these raise here.) *)
Definition hex_value (c : ascii) : res nat :=
  let n := nat_of_ascii c in
  if Nat.leb 48 n && Nat.leb n 57 then Ok (n - 48)
  else if Nat.leb 97 n && Nat.leb n 102 then Ok (n - 87)
  else if Nat.leb 65 n && Nat.leb n 70 then Ok (n - 55)
  else Err ValueError.
Definition int16 (s : list ascii) : res nat :=
  match s with
  | [] => Err ValueError
  | _ => foldM (fun v c => do d <- hex_value c; Ok (16 * v + d)) s 0
  end.
(** [str.lstrip("#")] *)
Fixpoint lstrip (s : list ascii) : list ascii :=
  match s with
  | c :: r => if Ascii.eqb c "#"%char then lstrip r else s
  | [] => []
  end.
(** the builtin [range(0, n, step)] *)
Definition range_step (n step : nat) : res (list nat) :=
  if Nat.eqb step 0 then Err ValueError else Ok (filter (fun i => Nat.eqb (i mod step) 0) (seq 0 n)).
(** hex_to_rgb, 17-29 *)
Definition hex_to_rgb (value : list ascii) : res (list nat) :=
  let value := lstrip value in
  let lv := length value in
  do starts <- range_step lv (lv / 3);
  mapM (fun i => int16 (firstn (lv / 3) (skipn i value))) starts.
