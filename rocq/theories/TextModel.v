(** The string operations the simulator uses.  Strings are sequences of characters below 256 (all of Python 2's
    str). *)
From Verif Require Import Base.
Open Scope string_scope.
Open Scope list_scope.
Open Scope Z_scope.

Definition code (c : ascii) : Z := Z.of_nat (nat_of_ascii c).
Definition is_space (c : ascii) : bool := code c =? 32.
(** what strip() without argument and int() strip: tab, line feed, vertical tab, form feed, carriage return, space.
    Simplification: Python 3 also strips characters 28-31, 133 and 160 of text. *)
Definition is_white (c : ascii) : bool := ((9 <=? code c) && (code c <=? 13)) || (code c =? 32).
(** what strip('\r\n') strips *)
Definition is_crlf (c : ascii) : bool := (code c =? 13) || (code c =? 10).

Fixpoint lstrip (f : ascii -> bool) (s : string) : string :=
  match s with
  | EmptyString => EmptyString
  | String c t => if f c then lstrip f t else s
  end.
Fixpoint rstrip (f : ascii -> bool) (s : string) : string :=
  match s with
  | EmptyString => EmptyString
  | String c t => match rstrip f t with
                  | EmptyString => if f c then EmptyString else String c EmptyString
                  | t' => String c t'
                  end
  end.
(** s.strip(chars) *)
Definition strip (f : ascii -> bool) (s : string) : string := rstrip f (lstrip f s).

(** s.split(' ') *)
Fixpoint split_space (s : string) : list string :=
  match s with
  | EmptyString => [EmptyString]
  | String c t =>
      if is_space c then EmptyString :: split_space t
      else match split_space t with
           | w :: ws => String c w :: ws
           | [] => [String c EmptyString]
           end
  end.

(** s[:n] and s[n:] for n >= 0 *)
Definition take (n : nat) (s : string) : string := String.substring 0 n s.
Fixpoint drop (n : nat) (s : string) : string :=
  match n, s with
  | O, _ => s
  | _, EmptyString => EmptyString
  | S m, String _ t => drop m t
  end.

(** str(z), "%d" % z *)
Definition digit (d : Z) : ascii := ascii_of_nat (Z.to_nat (48 + d)).
Fixpoint digits (fuel : nat) (n : Z) (rest : string) : string :=
  match fuel with
  | O => rest
  | S m => let r := String (digit (n mod 10)) rest in if n <? 10 then r else digits m (n / 10) r
  end.
Definition str_of_pos (n : Z) : string := digits (S (Z.to_nat (Z.log2 n))) n EmptyString.
Definition py_str (z : Z) : string :=
  if z <? 0 then String (ascii_of_nat 45) (str_of_pos (- z)) else str_of_pos z.

(** int(s): white space around, a sign, digits, single underscores between digits (Python 3.6). *)
Definition digit_of (c : ascii) : option Z :=
  if (48 <=? code c) && (code c <=? 57) then Some (code c - 48) else None.
(** [after]: the last character was a digit *)
Fixpoint int_digits (s : string) (acc : Z) (after : bool) : res Z :=
  match s with
  | EmptyString => if after then Ok acc else Err PyValueError
  | String c t =>
      match digit_of c with
      | Some d => int_digits t (acc * 10 + d) true
      | None => if (code c =? 95) && after then int_digits t acc false else Err PyValueError
      end
  end.
Definition py_int (s : string) : res Z :=
  match strip is_white s with
  | EmptyString => Err PyValueError
  | String c t =>
      if code c =? 45 then z <- int_digits t 0 false ;; Ok (- z)
      else if code c =? 43 then int_digits t 0 false
      else int_digits (String c t) 0 false
  end.
