(** The TCP server over time (modbus_tcp.py 284-360): between two turns of the loop bytes arrive on any connection, clients hang up and
    new clients knock; each turn serves what select.select(self._sockets, [], [], 1.0) returns, in the order of self._sockets
    (modbus_tcp.py 287): the listening socket first, then the clients in the order in which they were accepted.
    Simplifications: as in TransportModel.v; no hooks. *)
From Verif Require Import Base DatabankModel TransportModel.

(** What happens on the network. *)
Inductive arrival := Arrives (id : Z) (l : list Z) | HangsUp (id : Z).
Definition arrive1 (a : arrival) (kc : Z * conn) : Z * conn :=
  match a, c_end (snd kc) with
  | Arrives id l, Stalled => if id =? fst kc then (fst kc, {| c_segs := c_segs (snd kc) ++ [l]; c_end := Stalled |}) else kc
  | HangsUp id, Stalled => if id =? fst kc then (fst kc, {| c_segs := c_segs (snd kc); c_end := Closed |}) else kc
  | _, Closed => kc                                            (* nothing comes after the end *)
  end.
Definition arrive (l : list arrival) (conns : list (Z * conn)) : list (Z * conn) :=
  fold_left (fun conns a => map (arrive1 a) conns) l conns.

(** A socket select reports: recv would not block. *)
Definition readable (c : conn) : bool :=
  match concat (c_segs c), c_end c with [], Stalled => false | _, _ => true end.
(** select.select(self._sockets, [], [], 1.0)[0], modbus_tcp.py 287.  [knock]: a client waiting to be accepted, and what accept gives. *)
Definition selected (s : tcp_server) (knock : option (res (Z * conn))) : list readiness :=
  match knock with Some a => if ts_listening s then [ReadyListen a] else [] | None => [] end ++
  map (fun kc => ReadyClient (fst kc)) (filter (fun kc => readable (snd kc)) (ts_conns s)).
(** One turn of the loop after what happened before it. *)
Record before_turn := { bt_arrivals : list arrival; bt_knock : option (res (Z * conn)) }.
Definition tcp_turn (h : tcp_server_hooks) (b : before_turn) (s : tcp_server) : tcp_server * list tcp_event :=
  let s1 := {| ts_listening := ts_listening s; ts_conns := arrive (bt_arrivals b) (ts_conns s); ts_db := ts_db s |} in
  tcp_do_run h (selected s1 (bt_knock b)) s1.
Fixpoint tcp_life (h : tcp_server_hooks) (l : list before_turn) (s : tcp_server) : tcp_server * list tcp_event :=
  match l with
  | [] => (s, [])
  | b :: t => let '(s1, ev1) := tcp_turn h b s in let '(s2, ev2) := tcp_life h t s1 in (s2, ev1 ++ ev2)
  end.
