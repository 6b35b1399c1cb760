(** RtuMaster._send with handle_local_echo (modbus_rtu.py 102-104, 126-140): adapters that give back what is sent. *)
From Verif Require Import Base QueryModel MasterModel TransportModel.

(** RtuMaster._send, modbus_rtu.py 126-140, after the buffers have been emptied: [p] is what arrives after the request is written.  The result is what is left to
    arrive, or the exception of read. *)
Definition rtu_master_send (before_send : byte_hook) (handle_local_echo : bool) (reply : list Z -> line) (request : list Z) : list Z * res line :=
  let request := replaced before_send request in
  let p := reply request in
  (request,
   if handle_local_echo then
     match serial_read (length request) p with
     | (p', Got _) => Ok p'
     | (_, Raised _) => Err GenericException
     end
   else Ok p).
(** execute of an RtuMaster on a line that answers the bytes written as [reply] says (modbus.py 356-370, modbus_rtu.py 126-170). *)
Definition echo_call (handle_local_echo : bool) (a : exec_args) (reply : list Z -> line) : executed :=
  execute RTU 0 a (fun request expected =>
    match snd (rtu_master_send no_hook handle_local_echo reply request) with
    | Err e => Err e
    | Ok p => match rtu_master_recv no_hook TPositive [] expected p with Some (_, r) => r | None => Err NotModelled end
    end).
