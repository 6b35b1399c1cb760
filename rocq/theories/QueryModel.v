(** Model of the MAC layers: RtuQuery (modbus_rtu.py 25-82), TcpMbap and
    TcpQuery (modbus_tcp.py 34-152). *)
From Verif Require Import Base PyStruct UtilsModel.

(** ** RTU *)

(** RtuQuery.build_request, modbus_rtu.py 34-41.  The query remembers the
    address (self._request_address), which is [slave] itself. *)
Definition rtu_build_request (pdu : list Z) (slave : Z) : res (list Z) :=
  if (slave <? 0) || (255 <? slave) then Err InvalidArgumentError
  else
    h <- pack ">B" [slave] ;;
    let data := h ++ pdu in
    crc <- pack ">H" [calculate_crc data] ;;
    Ok (data ++ crc).

(** the single value of struct.unpack(fmt, b) *)
Definition unpack_one (f : string) (b : list Z) : res Z :=
  l <- unpack f b ;; match l with [x] => Ok x | _ => Err PyValueError end.

(** x[:-2], x[-2:], x[1:-2] *)
Definition drop_last2 (l : list Z) : list Z := py_slice l 0 (-2).
Definition last2 (l : list Z) : list Z := py_slice l (-2) (zlen l).
Definition middle (l : list Z) : list Z := py_slice l 1 (-2).

(** RtuQuery.parse_response, modbus_rtu.py 43-62 *)
Definition rtu_parse_response (request_address : Z) (response : list Z) : res (list Z) :=
  if zlen response <? 3 then Err ModbusInvalidResponseError
  else
    response_address <- unpack_one ">B" (py_slice response 0 1) ;;
    if negb (request_address =? response_address) then Err ModbusInvalidResponseError
    else
      crc <- unpack_one ">H" (last2 response) ;;
      if negb (crc =? calculate_crc (drop_last2 response)) then Err ModbusInvalidResponseError
      else Ok (middle response).

(** RtuQuery.parse_request, modbus_rtu.py 64-75: (slave id, pdu) *)
Definition rtu_parse_request (request : list Z) : res (Z * list Z) :=
  if zlen request <? 3 then Err ModbusInvalidRequestError
  else
    request_address <- unpack_one ">B" (py_slice request 0 1) ;;
    crc <- unpack_one ">H" (last2 request) ;;
    if negb (crc =? calculate_crc (drop_last2 request)) then Err ModbusInvalidRequestError
    else Ok (request_address, middle request).

(** RtuQuery.build_response, modbus_rtu.py 77-82 *)
Definition rtu_build_response (request_address : Z) (response_pdu : list Z) : res (list Z) :=
  h <- pack ">B" [request_address] ;;
  let data := h ++ response_pdu in
  crc <- pack ">H" [calculate_crc data] ;;
  Ok (data ++ crc).

(** ** TCP *)

(** TcpMbap, modbus_tcp.py 34-49 (clone is record copy; of the zeros of __init__ 37-42 only the protocol id is ever used: build_request) *)
Record mbap := { mb_tid : Z; mb_pid : Z; mb_len : Z; mb_uid : Z }.

(** TcpMbap.pack / unpack, modbus_tcp.py 86-92 *)
Definition mbap_pack (m : mbap) : res (list Z) :=
  pack ">HHHB" [mb_tid m; mb_pid m; mb_len m; mb_uid m].
Definition mbap_unpack (v : list Z) : res mbap :=
  l <- unpack ">HHHB" v ;;
  match l with
  | [t; p; n; u] => Ok {| mb_tid := t; mb_pid := p; mb_len := n; mb_uid := u |}
  | _ => Err PyValueError
  end.

(** TcpMbap._check_ids, modbus_tcp.py 51-70: is the error string empty? *)
Definition mbap_ids_ok (self request : mbap) : bool :=
  (mb_tid request =? mb_tid self) && (mb_pid request =? mb_pid self)
  && (mb_uid request =? mb_uid self).

(** TcpMbap.check_length, modbus_tcp.py 72-77: is the error string empty? *)
Definition mbap_length_ok (self : mbap) (pdu_length : Z) : bool :=
  mb_len self =? pdu_length + 1.

(** TcpMbap.check_response, modbus_tcp.py 79-84 *)
Definition mbap_check_response (self request : mbap) (pdu_length : Z) : res unit :=
  if mbap_ids_ok self request && mbap_length_ok self pdu_length then Ok tt
  else Err ModbusInvalidMbapError.

(** TcpQuery._get_transaction_id, modbus_tcp.py 107-114: the class variable
    _last_transaction_id before and after; the new value is also the id. *)
Definition next_transaction_id (last : Z) : Z :=
  if last <? 65535 then last + 1 else 0.

(** TcpQuery.build_request, modbus_tcp.py 116-124.  Input: the class variable;
    output: its new value, and the request header (kept in the query object)
    with the bytes sent.  The id is consumed even if pack raises. *)
Definition tcp_build_request (last : Z) (pdu : list Z) (slave : Z)
  : Z * res (mbap * list Z) :=
  if (slave <? 0) || (255 <? slave) then (last, Err InvalidArgumentError)
  else
    let tid := next_transaction_id last in
    let m := {| mb_tid := tid; mb_pid := 0; mb_len := zlen pdu + 1; mb_uid := slave |} in
    (tid, h <- mbap_pack m ;; Ok (m, h ++ pdu)).

(** TcpQuery.parse_response, modbus_tcp.py 126-134 *)
Definition tcp_parse_response (request : mbap) (response : list Z) : res (list Z) :=
  if 6 <? zlen response then
    let pdu := py_from response 7 in
    m <- mbap_unpack (py_slice response 0 7) ;;
    _u <- mbap_check_response m request (zlen pdu) ;;
    Ok pdu
  else Err ModbusInvalidResponseError.

(** TcpQuery.parse_request, modbus_tcp.py 136-146: header, unit id, pdu *)
Definition tcp_parse_request (request : list Z) : res (mbap * Z * list Z) :=
  if 6 <? zlen request then
    let pdu := py_from request 7 in
    m <- mbap_unpack (py_slice request 0 7) ;;
    if mbap_length_ok m (zlen pdu) then Ok (m, mb_uid m, pdu)
    else Err ModbusInvalidMbapError
  else Err ModbusInvalidRequestError.

(** TcpQuery.build_response, modbus_tcp.py 148-152 *)
Definition tcp_build_response (request : mbap) (response_pdu : list Z) : res (list Z) :=
  let m := {| mb_tid := mb_tid request; mb_pid := mb_pid request;
              mb_len := zlen response_pdu + 1; mb_uid := mb_uid request |} in
  h <- mbap_pack m ;; Ok (h ++ response_pdu).

(** ** Either protocol, as seen by the databank (modbus.py 35-71) *)
Inductive proto := RTU | TCP.

(** what the query object remembers of the request *)
Inductive qhdr := HRtu (address : Z) | HTcp (m : mbap).

Definition parse_request (p : proto) (request : list Z) : res (qhdr * Z * list Z) :=
  match p with
  | RTU => r <- rtu_parse_request request ;; Ok (HRtu (fst r), fst r, snd r)
  | TCP => r <- tcp_parse_request request ;;
           let '(m, u, pdu) := r in Ok (HTcp m, u, pdu)
  end.

Definition build_response (h : qhdr) (pdu : list Z) : res (list Z) :=
  match h with
  | HRtu a => rtu_build_response a pdu
  | HTcp m => tcp_build_response m pdu
  end.

Definition parse_response (h : qhdr) (response : list Z) : res (list Z) :=
  match h with
  | HRtu a => rtu_parse_response a response
  | HTcp m => tcp_parse_response m response
  end.

(** Master side: the query made for a request; [last] is the TCP id counter. *)
Definition build_request (p : proto) (last : Z) (pdu : list Z) (slave : Z)
  : Z * res (qhdr * list Z) :=
  match p with
  | RTU => (last, b <- rtu_build_request pdu slave ;; Ok (HRtu slave, b))
  | TCP => let '(last', r) := tcp_build_request last pdu slave in
           (last', mb <- r ;; Ok (HTcp (fst mb), snd mb))
  end.
