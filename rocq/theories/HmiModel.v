(** hmi/master_webhmi.py: the web pages that poll Modbus servers, and the data base in which masters and requests are kept.
    Simplifications: the program is Python 2; pages are served one at a time (bottle's default server); a page is what its template shows,
    without layout; sqlite is a list of rows in the order of their ids; a text stored in an INTEGER column becomes a number when int() reads
    it and stays a text otherwise (sqlite also converts "1.0" and "1e2", int() also accepts what TextModel.py_int says); the device behind
    master.modbus.execute is a state machine [exec], see [Section Web]. *)
From Coq Require Import ZArith List String Ascii Bool.
From Verif Require Import Base TextModel.
Import ListNotations.
Open Scope string_scope.
Open Scope list_scope.
Open Scope Z_scope.

(** A value in a column declared INTEGER *)
Inductive cell := CInt (z : Z) | CText (s : string).
Definition affinity (s : string) : cell := match py_int s with Ok z => CInt z | Err _ => CText s end.
(** int(value of a column) *)
Definition cell_int (c : cell) : res Z := match c with CInt z => Ok z | CText s => py_int s end.
Definition cell_eqb (a b : cell) : bool :=
  match a, b with CInt x, CInt y => x =? y | CText x, CText y => String.eqb x y | _, _ => false end.

(** Tables master and request, lines 90-101; [h_mseq], [h_rseq]: the last ids given (AUTOINCREMENT never gives an id twice). *)
Record mrow := { m_id : Z; m_protocol : string; m_address : string }.
Record rrow := { r_id : Z; r_master : Z; r_slave : cell; r_function : cell; r_start : cell; r_count : cell }.
Record hdb := { h_masters : list mrow; h_requests : list rrow; h_mseq : Z; h_rseq : Z }.
(** Persistence.__init__ without a data base file, lines 84-103 *)
Definition new_hdb : hdb := {| h_masters := [{| m_id := 1; m_protocol := "tcp"; m_address := "localhost" |}]; h_requests := []; h_mseq := 1; h_rseq := 0 |}.
(** get_requests, lines 127-132 (without the text made for the page) *)
Definition get_requests (d : hdb) (master : Z) : list rrow := filter (fun r => r_master r =? master) (h_requests d).
(** get_hr_requests_for_slave, lines 138-140; both arguments come from the URL *)
Definition get_hr_requests (d : hdb) (master slave : string) : list rrow :=
  filter (fun r => cell_eqb (CInt (r_master r)) (affinity master) && cell_eqb (r_slave r) (affinity slave) && cell_eqb (r_function r) (CInt 3)) (h_requests d).
(** Persistence.add_request, lines 142-146 *)
Definition db_add_request (d : hdb) (master : Z) (slave fct start count : string) : hdb :=
  {| h_masters := h_masters d; h_mseq := h_mseq d; h_rseq := h_rseq d + 1;
     h_requests := h_requests d ++ [{| r_id := h_rseq d + 1; r_master := master; r_slave := affinity slave; r_function := affinity fct; r_start := affinity start; r_count := affinity count |}] |}.
(** Persistence.delete_request, lines 148-151 *)
Definition db_delete_request (d : hdb) (id : string) : hdb :=
  {| h_masters := h_masters d; h_mseq := h_mseq d; h_rseq := h_rseq d; h_requests := filter (fun r => negb (cell_eqb (CInt (r_id r)) (affinity id))) (h_requests d) |}.
(** Persistence.add_master, lines 153-157; the largest id is the new one *)
Definition db_add_master (d : hdb) (protocol address : string) : hdb * Z :=
  ({| h_masters := h_masters d ++ [{| m_id := h_mseq d + 1; m_protocol := protocol; m_address := address |}]; h_requests := h_requests d; h_mseq := h_mseq d + 1; h_rseq := h_rseq d |},
   h_mseq d + 1).
(** Persistence.delete_master, lines 159-162: the requests of the master stay *)
Definition db_delete_master (d : hdb) (id : string) : hdb :=
  {| h_masters := filter (fun m => negb (cell_eqb (CInt (m_id m)) (affinity id))) (h_masters d); h_requests := h_requests d; h_mseq := h_mseq d; h_rseq := h_rseq d |}.

(** s.split(c) *)
Fixpoint split_on (c : ascii) (s : string) : list string :=
  match s with
  | EmptyString => [EmptyString]
  | String x t =>
      if Ascii.eqb x c then EmptyString :: split_on c t
      else match split_on c t with w :: l => String x w :: l | [] => [String x EmptyString] end
  end.

(** Whom a Master object talks to *)
Inductive target := Tcp (host : string) (port : Z) | Serial (port : string).
(** Lines 33-37. TcpMaster(address) uses port 502 (modbus_tcp.py 158). *)
Definition tcp_target (address : string) : target :=
  match split_on ":"%char address with
  | [host; port] => match py_int port with Ok p => Tcp host p | Err _ => Tcp address 502 end
  | _ => Tcp address 502
  end.
(** Lines 41-51 (int(val) is left out: see [serial_open]): the value of the last "port:..." among "key:value,key:value"; every element must have exactly one colon. *)
Fixpoint serial_args (l : list string) (port : option string) : res (option string) :=
  match l with
  | [] => Ok port
  | a :: l' => match split_on ":"%char a with
               | [key; v] => serial_args l' (if String.eqb key "port" then Some v else port)
               | _ => Err PyValueError
               end
  end.
(** Lines 52-60, with the ports as texts (line 47 turns numbers into int). [ports]: SERIAL_PORTS, a dictionary: looking up a port that is not there raises KeyError, and the handler is for IndexError. *)
Definition serial_open (ports : list string) (port : option string) : list string * res target :=
  match port with
  | None => (ports, Err GenericException)
  | Some p =>
      let lookup : res unit := if existsb (String.eqb p) ports then Ok tt else Err PyKeyError in
      match lookup with
      | Ok _ => (ports, Ok (Serial p))
      | Err PyIndexError => (p :: ports, Ok (Serial p))
      | Err _ => (ports, Err GenericException)
      end
  end.
(** Master.__init__, lines 31-65 *)
Definition open_master (ports : list string) (protocol address : string) : list string * res target :=
  if String.eqb protocol "tcp" then (ports, Ok (tcp_target address))
  else if String.eqb protocol "rtu" then
    match serial_args (split_on ","%char address) None with
    | Err e => (ports, Err e)
    | Ok port => serial_open ports port
    end
  else (ports, Err GenericException).

(** A Master object: [o_requests] is what the page of the master lists (self.requests, lines 70, 77, 81). *)
Record mobj := { o_id : Z; o_target : target; o_requests : list rrow }.
Record website := { a_db : hdb; a_masters : list (Z * mobj); a_ports : list string }.
(** App._load_masters, lines 169-176 *)
Fixpoint load (d : hdb) (ports : list string) (rows : list mrow) : list string * list (Z * mobj) :=
  match rows with
  | [] => (ports, [])
  | m :: rows' =>
      let '(ports1, r) := open_master ports (m_protocol m) (m_address m) in
      let '(ports2, l) := load d ports1 rows' in
      (ports2, match r with Ok t => (m_id m, {| o_id := m_id m; o_target := t; o_requests := get_requests d (m_id m) |}) :: l | Err _ => l end)
  end.
Definition load_masters (d : hdb) (ports : list string) : website :=
  let '(ports', l) := load d ports (h_masters d) in {| a_db := d; a_masters := l; a_ports := ports' |}.
(** App.get_master, lines 183-185 *)
Fixpoint find_master (l : list (Z * mobj)) (id : Z) : res mobj :=
  match l with [] => Err PyKeyError | (i, o) :: l' => if i =? id then Ok o else find_master l' id end.
Definition get_master (a : website) (id : string) : res mobj := z <- py_int id ;; find_master (a_masters a) z.
(** Master.add_request and delete_request, lines 75-81: only the object they are called on lists the requests again *)
Definition relist (d : hdb) (l : list (Z * mobj)) (id : Z) : list (Z * mobj) :=
  map (fun '(i, o) => if i =? id then (i, {| o_id := o_id o; o_target := o_target o; o_requests := get_requests d (o_id o) |}) else (i, o)) l.

(** What a request of the browser yields. [Grid]: the table of master_results.tpl, its lines with their labels; [Table]: that of
    master_results_all_hr.tpl, address and value; [Failed]: the exception is reported as an internal server error. *)
Inductive page :=
| Grid (lines : list (Z * list Z))
| Table (l : list (Z * Z))
| Json (l : list (string * Z))
| Refusal (code : Z)
| Listing (l : list mobj)
| Detail (o : mobj)
| Redirect
| Failed (e : exn).

(** d[key] = v in a dictionary *)
Fixpoint dput {K} (eqb : K -> K -> bool) (l : list (K * Z)) (k : K) (v : Z) : list (K * Z) :=
  match l with [] => [(k, v)] | (k', v') :: l' => if eqb k' k then (k', v) :: l' else (k', v') :: dput eqb l' k v end.
(** lines 251-256 and 305-309: the results under i, i+1, ... *)
Fixpoint dput_all {K} (eqb : K -> K -> bool) (key : Z -> K) (l : list (K * Z)) (i : Z) (vs : list Z) : list (K * Z) :=
  match vs with [] => l | v :: vs' => dput_all eqb key (dput eqb l (key i) v) (i + 1) vs' end.
(** line 234 and the table of master_results.tpl lines 37-43: results[l:l+16] for l = 0, 16, .. *)
Fixpoint rows16 (n : nat) (start l : Z) (results : list Z) : list (Z * list Z) :=
  match n with O => [] | S m => (l + start, py_slice results l (l + 16)) :: rows16 m start (l + 16) results end.
Definition grid (start : Z) (results : list Z) : list (Z * list Z) :=
  rows16 (Z.to_nat ((if 0 <? zlen results mod 16 then 1 else 0) + zlen results / 16)) start 0 results.

Section Web.
Variable W : Type.
(** master.modbus.execute(slave, function, start, length) of the master with the given id: the world afterwards, and the result *)
Variable exec : W -> Z -> Z -> Z -> Z -> Z -> W * res (list Z).

(** the call in show_results and get_json_data: the four int() come first *)
Definition call (w : W) (o : mobj) (slave fct start count : string) : W * res (list Z) :=
  match (s <- py_int slave ;; f <- py_int fct ;; a <- py_int start ;; n <- py_int count ;; Ok (s, f, a, n)) with
  | Err e => (w, Err e)
  | Ok (s, f, a, n) => exec w (o_id o) s f a n
  end.
(** show_results, lines 226-238 *)
Definition show_results (w : W) (a : website) (master slave fct start count : string) : W * page :=
  match get_master a master with
  | Err e => (w, Failed e)
  | Ok o =>
      let '(w', r) := call w o slave fct start count in
      (w', match r with
           | Ok results => match py_int start with Ok s => Grid (grid s results) | Err e => Failed e end
           | Err (ModbusError c) => Refusal c
           | Err e => Failed e
           end)
  end.
(** the loop of show_results_all_hr and get_all_json_data, lines 250-256 and 304-309 *)
Fixpoint read_all {K} (eqb : K -> K -> bool) (key : Z -> K) (w : W) (o : mobj) (slave : string) (reqs : list rrow) (acc : list (K * Z)) : W * res (list (K * Z)) :=
  match reqs with
  | [] => (w, Ok acc)
  | r :: reqs' =>
      match (a <- cell_int (r_start r) ;; s <- py_int slave ;; n <- cell_int (r_count r) ;; Ok (a, s, n)) with
      | Err e => (w, Err e)
      | Ok (a, s, n) =>
          let '(w', x) := exec w (o_id o) s 3 a n in
          match x with
          | Err e => (w', Err e)
          | Ok results => read_all eqb key w' o slave reqs' (dput_all eqb key acc a results)
          end
      end
  end.
(** show_results_all_hr, lines 241-261 *)
Definition show_all_hr (w : W) (a : website) (master slave : string) : W * page :=
  match get_master a master with
  | Err e => (w, Failed e)
  | Ok o =>
      let '(w', r) := read_all Z.eqb (fun z => z) w o slave (get_hr_requests (a_db a) master slave) [] in
      (w', match r with Ok l => Table l | Err (ModbusError c) => Refusal c | Err e => Failed e end)
  end.
(** get_json_data, lines 285-296: name, url and friendly_name are not defined there, so the handler raises NameError *)
Definition json_results (w : W) (a : website) (master slave fct start count : string) : W * page :=
  match get_master a master with
  | Err e => (w, Failed e)
  | Ok o =>
      let '(w', r) := call w o slave fct start count in
      (w', match r with
           | Ok results => Json (dput_all String.eqb py_str [] 0 results)
           | Err (ModbusError c) => Failed PyNameError
           | Err e => Failed e
           end)
  end.
(** get_all_json_data, lines 299-312 *)
Definition json_all_hr (w : W) (a : website) (master slave : string) : W * page :=
  match get_master a master with
  | Err e => (w, Failed e)
  | Ok o =>
      let '(w', r) := read_all String.eqb py_str w o slave (get_hr_requests (a_db a) master slave) [] in
      (w', match r with Ok l => Json l | Err (ModbusError c) => Failed PyNameError | Err e => Failed e end)
  end.
(** the keys of _masters are sorted, lines 178-181 *)
Fixpoint insert (x : Z * mobj) (l : list (Z * mobj)) : list (Z * mobj) :=
  match l with [] => [x] | y :: l' => if fst x <=? fst y then x :: y :: l' else y :: insert x l' end.
Definition listing (a : website) : list mobj := map snd (fold_right insert [] (a_masters a)).

(** What a browser can ask for; [Restart]: the program is started again with the same data base file. *)
Inductive visit :=
| Masters | Master (id : string) | AddMaster (protocol address : string) | DeleteMaster (id : string)
| AddRequest (master slave fct start count : string) | DeleteRequest (master id : string)
| Read (master slave fct start count : string) | ReadAll (master slave : string)
| ReadJson (master slave fct start count : string) | ReadAllJson (master slave : string)
| Restart.
(** the routes, lines 198-312 *)
Definition serve (w : W) (a : website) (v : visit) : W * website * page :=
  match v with
  | Masters => (w, a, Listing (listing a))
  | Master id => (w, a, match get_master a id with Ok o => Detail o | Err e => Failed e end)
  | AddMaster p ad =>
      let '(d, id) := db_add_master (a_db a) p ad in
      let a' := load_masters d (a_ports a) in
      (w, a', match find_master (a_masters a') id with Ok o => Detail o | Err e => Failed e end)
  | DeleteMaster id => (w, load_masters (db_delete_master (a_db a) id) (a_ports a), Redirect)
  | AddRequest m s f st c =>
      match get_master a m with
      | Err e => (w, a, Failed e)
      | Ok o =>
          let d := db_add_request (a_db a) (o_id o) s f st c in
          let a' := {| a_db := d; a_masters := relist d (a_masters a) (o_id o); a_ports := a_ports a |} in
          let '(w', pg) := show_results w a' m s f st c in (w', a', pg)
      end
  | DeleteRequest m id =>
      match get_master a m with
      | Err e => (w, a, Failed e)
      | Ok o =>
          let d := db_delete_request (a_db a) id in
          (w, {| a_db := d; a_masters := relist d (a_masters a) (o_id o); a_ports := a_ports a |}, Redirect)
      end
  | Read m s f st c => let '(w', pg) := show_results w a m s f st c in (w', a, pg)
  | ReadAll m s => let '(w', pg) := show_all_hr w a m s in (w', a, pg)
  | ReadJson m s f st c => let '(w', pg) := json_results w a m s f st c in (w', a, pg)
  | ReadAllJson m s => let '(w', pg) := json_all_hr w a m s in (w', a, pg)
  | Restart => (w, load_masters (a_db a) [], Redirect)
  end.
(** App() with a new data base, then any visits *)
Inductive visited : W -> website -> Prop :=
| visited_start w : visited w (load_masters new_hdb [])
| visited_step w a v : visited w a -> visited (fst (fst (serve w a v))) (snd (fst (serve w a v))).
End Web.
