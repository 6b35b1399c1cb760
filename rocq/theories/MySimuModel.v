(** Model of examples/mysimu.py: a simulator with two more commands, on one slave with one block.

    Simplifications: main (82-117: the choice of the server, 'quit', closing) is not modelled; the server is its databank, as in SimulatorModel.v. *)
From Flocq Require Import IEEE754.Binary IEEE754.Bits.
From Verif Require Import Base PyStruct SlaveModel DatabankModel HooksModel TextModel SimulatorModel FloatModel NativeModel.
Open Scope string_scope.
Open Scope list_scope.
Open Scope Z_scope.

(** mysimu.py 52-57: "if address == 0 and values[0] > 30: try: values[1] = 1; except IndexError: values.append(1)" *)
Definition custom_rule (address : Z) (values : list Z) : res (list Z) :=
  if address =? 0 then
    match values with
    | [] => Err PyIndexError
    | v :: t => Ok (if 30 <? v then match t with [] => [v; 1] | _ :: t' => v :: 1 :: t' end else values)
    end
  else Ok values.
(** change_value, mysimu.py 42-62 *)
Definition do_cv : fct := fun s args =>
  need s (int_arg args 1) (fun address =>
  need s (ints (skipn 2 args)) (fun given =>
  need s (custom_rule address given) (fun values =>
  need s (get_slave (sm_db s) 1) (fun sl =>
  let '(sl', r) := set_values sl "foo" address (SvSeq values) in
  (with_db s (put_slave (sm_db s) 1 sl'), _ <- r ;; Ok (Some (tuple_to_str values))))))).
(** the Python literal 3.14: the binary64 number 0x40091EB851EB851F *)
Definition py_3_14 : num := NFloat (b64_of_bits 4614253070214989087).
(** set_pi, mysimu.py 64-82; struct.pack("f", 3.14) on the machine [m] *)
Definition do_set_pi (m : machine) : fct := fun s args =>
  need s (int_arg args 1) (fun address =>
  need s (get_slave (sm_db s) 1) (fun sl =>
  need s (mpack m "f" [py_3_14]) (fun pi_bytes =>
  match pi_bytes with
  | b0 :: b1 :: b2 :: b3 :: _ =>
      let '(sl', r) := set_values sl "foo" address (SvSeq [b0 * 256 + b1; b2 * 256 + b3]) in
      (with_db s (put_slave (sm_db s) 1 sl'), _ <- r ;; vs <- get_values sl' "foo" address 2 ;; Ok (Some (tuple_to_str vs)))
  | _ => (s, Err PyIndexError)
  end))).
(** MySimulator.__init__, mysimu.py 32-40 *)
Definition my_cmds (m : machine) : list (string * fct) := add_command (add_command builtin_cmds "cv" do_cv) "set_pi" (do_set_pi m).
Definition my_init (s : sim) : sim * res unit :=
  let '(d, r) := add_slave (sm_db s) 1 true None in
  match r with
  | Err e => (with_db s d, Err e)
  | Ok _ =>
      match get_slave d 1 with
      | Err e => (with_db s d, Err e)
      | Ok sl => let '(sl', r') := add_block sl "foo" 3 0 100 in (with_db s (put_slave d 1 sl'), r')
      end
  end.
