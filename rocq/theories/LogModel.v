(** utils.get_log_buffer (utils.py 64-69): the text of the debug log for a frame. *)
From Coq Require Import String Ascii.
From Verif Require Import Base TextModel.

(** log[:-1] for a string *)
Fixpoint but_last (s : string) : string :=
  match s with
  | EmptyString => EmptyString
  | String _ EmptyString => EmptyString
  | String c t => String c (but_last t)
  end.
(** get_log_buffer(prefix, buff), utils.py 64-69; [buff]: the bytes (Python 3: iterating over bytes yields their values) *)
Definition get_log_buffer (prefix : string) (buff : list Z) : string :=
  but_last (fold_left (fun log i => append log (append (py_str i) "-")) buff prefix).
