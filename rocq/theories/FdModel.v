(** File descriptors of the TCP server (modbus_tcp.py 284-360), on a POSIX system: what accept() gives and what select() takes.
    Simplifications: as in AvailModel.v; the descriptors the rest of the process uses are given for every turn; nothing but
    accept() opens and nothing but close() closes descriptors during a turn. *)
From Verif Require Import Base DatabankModel TransportModel AvailModel.

(** A new descriptor is the lowest number that is not in use (POSIX). *)
Fixpoint search_free (fuel : nat) (n : Z) (used : list Z) : Z :=
  match fuel with
  | O => n
  | Datatypes.S f => if existsb (Z.eqb n) used then search_free f (n + 1) used else n
  end.
Definition lowest_free (used : list Z) : Z := search_free (length used) 0 used.
(** [fe_limit]: RLIMIT_NOFILE; [fe_listen]: the descriptor of the listening socket. *)
Record fd_env := { fe_limit : Z; fe_listen : Z }.
(** The descriptors of self._sockets; the identity of a connection is its descriptor. *)
Definition fds (env : fd_env) (s : tcp_server) : list Z :=
  (if ts_listening s then [fe_listen env] else []) ++ map fst (ts_conns s).
(** self._sock.accept(), modbus_tcp.py 294: EMFILE when the process has no descriptor left. *)
Definition accept_fd (env : fd_env) (others : list Z) (s : tcp_server) (c : conn) : res (Z * conn) :=
  let fd := lowest_free (others ++ fds env s) in
  if fd <? fe_limit env then Ok (fd, c) else Err SocketTimeout.   (* OSError *)
(** select.select, modbus_tcp.py 287: "filedescriptor out of range in select()" is raised for descriptors of 1024 and more. *)
Definition FD_SETSIZE : Z := 1024.
Definition select_raises (env : fd_env) (s : tcp_server) : bool := existsb (fun fd => FD_SETSIZE <=? fd) (fds env s).
(** One turn: what arrives before it, a client that waits to be accepted, the descriptors the rest of the process uses. *)
Record fd_before := { ft_arrivals : list arrival; ft_knock : option conn; ft_others : list Z }.
(** None: an exception leaves _do_run, and the server thread ends (modbus.py 1070-1074). *)
Definition fd_turn (env : fd_env) (t : fd_before) (s : tcp_server) : option (tcp_server * list tcp_event) :=
  if select_raises env s then None
  else Some (tcp_turn no_tcp_hooks
    {| bt_arrivals := ft_arrivals t; bt_knock := option_map (accept_fd env (ft_others t) s) (ft_knock t) |} s).
Fixpoint fd_life (env : fd_env) (l : list fd_before) (s : tcp_server) : option (tcp_server * list tcp_event) :=
  match l with
  | [] => Some (s, [])
  | t :: rest =>
      match fd_turn env t s with
      | None => None
      | Some (s1, ev1) =>
          match fd_life env rest s1 with
          | None => None
          | Some (s2, ev2) => Some (s2, ev1 ++ ev2)
          end
      end
  end.
