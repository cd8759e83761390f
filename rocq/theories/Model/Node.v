(** dronecan/node.py 128-545: handlers, requests, responses, broadcasts and
    [spin]. The scheduler part of [Node] is the one of Model/Sched. *)
From Verif.Base Require Import Prelude.
From Verif.Model Require Import Types Codec MsgId Frames TransferManager Sched.
Local Open Scope Z_scope.

(** A data type as handlers know it: its id and whether it is a service.
    Simplification: Python compares the type objects; registered types are
    identified by id and kind (see [datatypes]). *)
Definition typeid := (N * bool)%type.
Definition typeid_eqb (a b : typeid) : bool := N.eqb (fst a) (fst b) && Bool.eqb (snd a) (snd b).

(** An entry of [HandlerDispatcher._handlers]: node.py 149-189. The number
    identifies the entry; [None] is a handler for every type. *)
Record handler := Handler {
  hd_id : nat;
  hd_type : option typeid;
  hd_sniff : bool
}.

(** The scheduled actions of a node: the node status broadcast (node.py 286),
    user tasks, and the timeouts of requests (node.py 476-488). *)
Inductive nact :=
| AStatus (period : Z)
| ATask (h : nat)
| AEvery (h : nat) (period : Z)
| ATimeout (r : nat) (k : key).

(** What happens, in order. Requests are numbered in the order in which they
    were registered. *)
Inductive nobs :=
| OSend (session : option key) (h : header) (tid : N) (fs : list frame) (err : option exn)
    (* an attempt to send a transfer: the frames the driver took, and the
       exception that ended the attempt *)
| ORequest (r : nat) (h : header) (tid : N) (deadline : Z)
| OResponse (r : nat) (t : rx)          (* callback of request r gets a response *)
| OTimeout (r : nat) (now : Z)          (* callback of request r gets None *)
| OHandled (hd : handler) (t : rx)      (* a handler is called *)
| OTask (h : nat) (now : Z)             (* a user task is called *)
| ONodeId (n : N).                      (* the node id is set *)

(** What user code does with a node. *)
Inductive nop :=
| NRequest (dt : datatype) (v : value) (dest : N) (prio : option N) (timeout : option Z)
           (canfd : option bool)
| NBroadcast (dt : datatype) (v : value) (prio : option N) (canfd : option bool)
| NRespond (dt : datatype) (v : value) (dest : N) (tid prio : N) (canfd : option bool)
| NDefer (delay : Z)
| NPeriodic (period : Z)
| NRemoveTask (h : nat)
| NAddHandler (ty : option typeid) (sniff : bool)
| NRemoveHandler (i : nat)
| NRemoveHandlers (ty : option typeid)
| NSetId (v : Z)
| NSetCanfd (b : bool).

(** How a callback ends. *)
Inductive outcome :=
| Returns (reply : option (datatype * value))
| Raises.

(** [n_lists]: the list objects that [_handlers] has been, the current one at
    index [n_cur]; [remove_handlers] makes a new one while a running
    [call_handlers] goes on with the old one. [n_holders]: the sequence number
    of the event behind each user task's handle. *)
Record node := Node {
  n_id : option N;
  n_canfd : bool;
  n_catch : bool;                              (* catch_handler_exceptions *)
  n_manager : manager;
  n_requests : list (key * (header * N));      (* _outstanding_requests *)
  n_callbacks : list (key * (nat * nat));      (* request number, timeout event *)
  n_next : list (key * N);                     (* _next_transfer_ids *)
  n_queue : list (event nact);
  n_seq : nat;
  n_holders : list (nat * nat);
  n_tasks : nat;
  n_reqs : nat;
  n_lists : list (list handler);
  n_cur : nat;
  n_hds : nat;
  n_reads : nat;
  n_log : list nobs
}.

Definition set_id (s : node) x := Node x (n_canfd s) (n_catch s) (n_manager s) (n_requests s) (n_callbacks s) (n_next s) (n_queue s) (n_seq s) (n_holders s) (n_tasks s) (n_reqs s) (n_lists s) (n_cur s) (n_hds s) (n_reads s) (n_log s).
Definition set_canfd (s : node) x := Node (n_id s) x (n_catch s) (n_manager s) (n_requests s) (n_callbacks s) (n_next s) (n_queue s) (n_seq s) (n_holders s) (n_tasks s) (n_reqs s) (n_lists s) (n_cur s) (n_hds s) (n_reads s) (n_log s).
Definition set_manager (s : node) x := Node (n_id s) (n_canfd s) (n_catch s) x (n_requests s) (n_callbacks s) (n_next s) (n_queue s) (n_seq s) (n_holders s) (n_tasks s) (n_reqs s) (n_lists s) (n_cur s) (n_hds s) (n_reads s) (n_log s).
Definition set_pending (s : node) x y := Node (n_id s) (n_canfd s) (n_catch s) (n_manager s) x y (n_next s) (n_queue s) (n_seq s) (n_holders s) (n_tasks s) (n_reqs s) (n_lists s) (n_cur s) (n_hds s) (n_reads s) (n_log s).
Definition set_next (s : node) x := Node (n_id s) (n_canfd s) (n_catch s) (n_manager s) (n_requests s) (n_callbacks s) x (n_queue s) (n_seq s) (n_holders s) (n_tasks s) (n_reqs s) (n_lists s) (n_cur s) (n_hds s) (n_reads s) (n_log s).
Definition set_queue (s : node) q n := Node (n_id s) (n_canfd s) (n_catch s) (n_manager s) (n_requests s) (n_callbacks s) (n_next s) q n (n_holders s) (n_tasks s) (n_reqs s) (n_lists s) (n_cur s) (n_hds s) (n_reads s) (n_log s).
Definition set_holders (s : node) x n := Node (n_id s) (n_canfd s) (n_catch s) (n_manager s) (n_requests s) (n_callbacks s) (n_next s) (n_queue s) (n_seq s) x n (n_reqs s) (n_lists s) (n_cur s) (n_hds s) (n_reads s) (n_log s).
Definition set_reqs (s : node) n := Node (n_id s) (n_canfd s) (n_catch s) (n_manager s) (n_requests s) (n_callbacks s) (n_next s) (n_queue s) (n_seq s) (n_holders s) (n_tasks s) n (n_lists s) (n_cur s) (n_hds s) (n_reads s) (n_log s).
Definition set_lists (s : node) l c n := Node (n_id s) (n_canfd s) (n_catch s) (n_manager s) (n_requests s) (n_callbacks s) (n_next s) (n_queue s) (n_seq s) (n_holders s) (n_tasks s) (n_reqs s) l c n (n_reads s) (n_log s).
Definition set_reads (s : node) n := Node (n_id s) (n_canfd s) (n_catch s) (n_manager s) (n_requests s) (n_callbacks s) (n_next s) (n_queue s) (n_seq s) (n_holders s) (n_tasks s) (n_reqs s) (n_lists s) (n_cur s) (n_hds s) n (n_log s).
Definition see (s : node) (o : nobs) := Node (n_id s) (n_canfd s) (n_catch s) (n_manager s) (n_requests s) (n_callbacks s) (n_next s) (n_queue s) (n_seq s) (n_holders s) (n_tasks s) (n_reqs s) (n_lists s) (n_cur s) (n_hds s) (n_reads s) (n_log s ++ [o]).

(** The list object with index [i]. *)
Definition handler_list (s : node) (i : nat) : list handler := nth i (n_lists s) [].
Definition update_list (s : node) (i : nat) (l : list handler) : list (list handler) :=
  firstn i (n_lists s) ++ l :: skipn (S i) (n_lists s).

(** transport.py 875-885: [is_response_to]; [q] is the request's transfer. *)
Definition optN_eqb (a b : option N) : bool :=
  match a, b with Some x, Some y => N.eqb x y | None, None => true | _, _ => false end.
Definition is_response_to (t : rx) (q : header * N) : bool :=
  h_service (fst q) && h_service (rx_header t) &&
  h_request (fst q) && negb (h_request (rx_header t)) &&
  optN_eqb (h_dest (fst q)) (h_source (rx_header t)) &&
  optN_eqb (h_source (fst q)) (h_dest (rx_header t)) &&
  N.eqb (h_dtid (fst q)) (h_dtid (rx_header t)) &&
  N.eqb (snd q) (rx_tid t).

(** node.py 301-302 and 360-362. *)
Definition anonymous (s : node) : bool :=
  match n_id s with None => true | Some n => N.eqb n 0 end.

Section NodeModel.
  (** The clock readings, the behaviour of callbacks, tasks and handlers (what
      each does; whether it catches the exceptions of the operation), the
      exceptions of the driver's [send], the [NodeStatus] messages, and the
      registered data types. Everything may depend on the whole history.
      [second] is the number of ticks of a second. *)
  Variable clk : nat -> Z.
  Variable beh : list nobs -> list (nop * bool) * outcome.
  Variable drv : list nobs -> list frame -> option exn.
  Variable status : list nobs -> value.
  Variable status_dt : datatype.
  Variable types : datatypes.
  Variable second : Z.

  Definition nread (s : node) : Z * node := (clk (n_reads s), set_reads s (S (n_reads s))).

  (** node.py 472-473 and its copies: [for frame in transfer.to_frames():
      self._can_driver.send(...)]. *)
  Fixpoint send_frames (log : list nobs) (sent rest : list frame) : list frame * option exn :=
    match rest with
    | [] => (sent, None)
    | f :: rest' =>
        match drv log sent with
        | Some x => (sent, Some x)
        | None => send_frames log (sent ++ [f]) rest'
        end
    end.

  (** Making a [Transfer] and handing its frames to the driver. The header is
      logged with the payload type's id. Simplification: transfer hooks do
      nothing (their exceptions are swallowed: node.py 229-236). *)
  Definition send (s : node) (session : option key) (h : header) (tid : N) (dt : datatype)
      (v : value) (canfd : option bool) : node * res tx :=
    let canfd := match canfd with Some b => b | None => n_canfd s end in
    let h' := Header (h_priority h) (h_service h) (h_request h) (h_source h) (h_dest h)
                     (dt_id dt) (h_discriminator h) in
    match make_tx h tid dt v canfd with
    | Err x => (see s (OSend session h' tid [] (Some x)), Err x)
    | Ok t =>
        match to_frames t with
        | Err x => (see s (OSend session h' tid [] (Some x)), Err x)
        | Ok (fs, _) =>
            let (sent, err) := send_frames (n_log s) [] fs in
            (see s (OSend session h' tid sent err),
             match err with None => Ok t | Some x => Err x end)
        end
    end.

  (** node.py 355-358. [defaultdict(int)]. *)
  Definition next_transfer_id (s : node) (k : key) : N * node :=
    let tid := match dget key_eqb (n_next s) k with Some t => t | None => 0%N end in
    (tid, set_next s (dset key_eqb (n_next s) k (N.land (tid + 1) 0x1F))).

  (** [priority or DEFAULT_TRANSFER_PRIORITY] *)
  Definition or_default (p : option N) : N :=
    match p with Some n => if N.eqb n 0 then 20 else n | None => 20 end%N.

  (** The scheduler's [enterabs]. *)
  Definition nenter (s : node) (t prio : Z) (a : nact) : node :=
    set_queue s (heappush (Event t prio (n_seq s) a) (n_queue s)) (S (n_seq s)).

  (** node.py 451-499: [request]. *)
  Definition request (s : node) (dt : datatype) (v : value) (dest : N) (prio : option N)
      (timeout : option Z) (canfd : option bool) : node * option exn :=
    if anonymous s then (s, Some UAVCANException)
    else
      let session := (dt_id dt, Some dest) in
      let (tid, s) := next_transfer_id s session in
      let h := Header (or_default prio) true true (n_id s) (Some dest) 0 None in
      match send s (Some session) h tid dt v canfd with
      | (s, Err x) => (s, Some x)
      | (s, Ok t) =>
          match message_id (tx_header t) with
          | Err x => (s, Some x)
          | Ok id =>
              let k : key := (id, Some tid) in
              let timeout := match timeout with
                             | Some t => if t =? 0 then second else t
                             | None => second end in
              let (now, s) := nread s in
              let r := n_reqs s in
              let ev := n_seq s in
              let s := nenter s (now + timeout) 1 (ATimeout r k) in
              let s := set_pending s (dset key_eqb (n_requests s) k (tx_header t, tid))
                                     (dset key_eqb (n_callbacks s) k (r, ev)) in
              (see (set_reqs s (S r)) (ORequest r (tx_header t) tid (now + timeout)), None)
          end
      end.

  (** node.py 526-543: [broadcast]. *)
  Definition broadcast (s : node) (dt : datatype) (v : value) (prio : option N)
      (canfd : option bool) : node * option exn :=
    if anonymous s then (s, Some UAVCANException)
    else
      let session := (dt_id dt, None) in
      let (tid, s) := next_transfer_id s session in
      let h := Header (or_default prio) false false (n_id s) None 0 None in
      match send s (Some session) h tid dt v canfd with
      | (s, Err x) => (s, Some x)
      | (s, Ok _) => (s, None)
      end.

  (** node.py 501-524: [respond]. *)
  Definition respond (s : node) (dt : datatype) (v : value) (dest : option N) (tid prio : N)
      (canfd : option bool) : node * option exn :=
    if anonymous s then (s, Some UAVCANException)
    else
      let h := Header prio true false (n_id s) dest 0 None in
      match send s None h tid dt v canfd with
      | (s, Err x) => (s, Some x)
      | (s, Ok _) => (s, None)
      end.

  (** node.py 308-316: the [node_id] setter. *)
  Definition set_node_id (s : node) (v : Z) : node * option exn :=
    if anonymous s then
      if (1 <=? v) && (v <=? 127)
      then (see (set_id s (Some (Z.to_N v))) (ONodeId (Z.to_N v)), None)
      else (s, Some ValueError)
    else (s, Some UAVCANException).

  Definition opttype_eqb (a b : option typeid) : bool :=
    match a, b with Some x, Some y => typeid_eqb x y | None, None => true | _, _ => false end.

  (** [list.remove] of the entry with number [i]; [None] is [ValueError]. *)
  Fixpoint remove_entry (i : nat) (l : list handler) : option (list handler) :=
    match l with
    | [] => None
    | hd :: l' =>
        if Nat.eqb (hd_id hd) i then Some l'
        else match remove_entry i l' with Some r => Some (hd :: r) | None => None end
    end.

  Definition apply_nop (s : node) (op : nop) : node * option exn :=
    match op with
    | NRequest dt v dest prio timeout canfd => request s dt v dest prio timeout canfd
    | NBroadcast dt v prio canfd => broadcast s dt v prio canfd
    | NRespond dt v dest tid prio canfd => respond s dt v (Some dest) tid prio canfd
    | NDefer delay =>
        let (now, s) := nread s in
        let h := n_tasks s in
        let ev := n_seq s in
        let s := nenter s (now + delay) 1 (ATask h) in
        (set_holders s (dset Nat.eqb (n_holders s) h ev) (S h), None)
    | NPeriodic period =>
        let (now, s) := nread s in
        let h := n_tasks s in
        let ev := n_seq s in
        let s := nenter s (now + period) 0 (AEvery h period) in
        (set_holders s (dset Nat.eqb (n_holders s) h ev) (S h), None)
    | NRemoveTask h =>
        match dget Nat.eqb (n_holders s) h with
        | None => (s, Some ValueError)
        | Some ev =>
            match cancel ev (n_queue s) with
            | None => (s, Some ValueError)
            | Some q => (set_queue s q (n_seq s), None)
            end
        end
    | NAddHandler ty sniff =>                          (* node.py 149-189 *)
        let service := match ty with Some (_, k) => k | None => false end in
        let hd := Handler (n_hds s) ty (sniff && service) in
        (set_lists s (update_list s (n_cur s) (handler_list s (n_cur s) ++ [hd]))
                   (n_cur s) (S (n_hds s)), None)
    | NRemoveHandler i =>                              (* node.py 131-140, 189 *)
        match remove_entry i (handler_list s (n_cur s)) with
        | None => (s, Some ValueError)
        | Some l => (set_lists s (update_list s (n_cur s) l) (n_cur s) (n_hds s), None)
        end
    | NRemoveHandlers ty =>                            (* node.py 191-192 *)
        (set_lists s (n_lists s ++ [filter (fun hd => negb (opttype_eqb (hd_type hd) ty))
                                           (handler_list s (n_cur s))])
                   (length (n_lists s)) (n_hds s), None)
    | NSetId v => set_node_id s v
    | NSetCanfd b => (set_canfd s b, None)
    end.

  (** The operations of a callback: an exception that is not caught ends it. *)
  Fixpoint apply_nops (s : node) (ops : list (nop * bool)) : node * option exn :=
    match ops with
    | [] => (s, None)
    | (op, caught) :: ops' =>
        match apply_nop s op with
        | (s, Some x) => if caught then apply_nops s ops' else (s, Some x)
        | (s, None) => apply_nops s ops'
        end
    end.

  (** Calling user code whose invocation has just been logged. *)
  Definition react (s : node) : node * res (option (datatype * value)) :=
    let (ops, out) := beh (n_log s) in
    match apply_nops s ops with
    | (s, Some x) => (s, Err x)
    | (s, None) => (s, match out with Returns r => Ok r | Raises => Err UserException end)
    end.

  Definition error_of {A} (r : res A) : option exn :=
    match r with Ok _ => None | Err x => Some x end.

  (** node.py 168-187: [call]. *)
  Definition call_handler (s : node) (hd : handler) (t : rx) : node * option exn :=
    let service := match hd_type hd with Some (_, k) => k | None => false end in
    match react (see s (OHandled hd t)) with
    | (s, Err x) => (s, Some x)
    | (s, Ok result) =>
        if service && negb (hd_sniff hd) then
          if negb (h_request (rx_header t)) then (s, None)
          else match result with
               | None => (s, Some UAVCANException)
               | Some (dt, v) =>
                   respond s dt v (h_source (rx_header t)) (rx_tid t)
                           (h_priority (rx_header t)) None
               end
        else match result with
             | None => (s, None)
             | Some _ => (s, Some UAVCANException)
             end
    end.

  Definition type_of (t : rx) : typeid := (dt_id (rx_datatype t), dt_service (rx_datatype t)).
  Definition accepts (hd : handler) (t : rx) : bool :=
    match hd_type hd with None => true | Some ty => typeid_eqb ty (type_of t) end.

  (** node.py 194-203: [call_handlers]: iteration by index over the list
      object [o], which handlers may change. *)
  Fixpoint call_handlers (fuel : nat) (s : node) (o i : nat) (t : rx) : node * option exn :=
    match fuel with
    | O => (s, Some RuntimeError)
    | S fuel' =>
        match nth_error (handler_list s o) i with
        | None => (s, None)
        | Some hd =>
            if accepts hd t then
              match call_handler s hd t with
              | (s, None) => call_handlers fuel' s o (S i) t
              | (s, Some x) =>
                  if n_catch s then call_handlers fuel' s o (S i) t else (s, Some x)
              end
            else call_handlers fuel' s o (S i) t
        end
    end.

  (** node.py 205-214. *)
  Definition sniffing (s : node) (t : rx) : bool :=
    h_service (rx_header t) && negb (h_request (rx_header t)) &&
    existsb (fun hd => opttype_eqb (hd_type hd) (Some (type_of t)) && hd_sniff hd)
            (handler_list s (n_cur s)).

  Fixpoint find_request (t : rx) (l : list (key * (header * N))) : option key :=
    match l with
    | [] => None
    | (k, q) :: l' => if is_response_to t q then Some k else find_request t l'
    end.

  (** node.py 332-353: what [_recv_frame] does with a complete transfer. *)
  Definition recv_transfer (fuel : nat) (s : node) (t : rx) : node * option exn :=
    if h_service (rx_header t) && negb (h_request (rx_header t)) &&
       optN_eqb (h_dest (rx_header t)) (n_id s) then
      match find_request t (n_requests s) with
      | None => (s, None)
      | Some k =>
          match dget key_eqb (n_callbacks s) k with
          | None => (s, Some KeyError)
          | Some (r, ev) =>
              (* [timeout_cancelling_wrapper] *)
              let s := match cancel ev (n_queue s) with
                       | Some q => set_queue s q (n_seq s)
                       | None => s
                       end in
              match react (see s (OResponse r t)) with
              | (s, Err x) => (s, Some x)
              | (s, Ok _) =>
                  if negb (dmem key_eqb (n_requests s) k) then (s, Some KeyError)
                  else if negb (dmem key_eqb (n_callbacks s) k)
                  then (set_pending s (ddel key_eqb (n_requests s) k) (n_callbacks s), Some KeyError)
                  else (set_pending s (ddel key_eqb (n_requests s) k)
                                      (ddel key_eqb (n_callbacks s) k), None)
              end
          end
      end
    else if negb (h_service (rx_header t)) || sniffing s t ||
            optN_eqb (h_dest (rx_header t)) (n_id s) then
      call_handlers fuel s (n_cur s) 0 t
    else (s, None).

  (** node.py 322-330: [_recv_frame]. The flag is the raw frame's [extended]. *)
  Definition recv_frame (fuel : nat) (s : node) (extended : bool) (f : frame)
      : node * option exn :=
    if negb extended then (s, None)
    else
      let (now, s) := nread s in
      let (m, done) := receive_frame (n_manager s) f now in
      let s := set_manager s m in
      match done with
      | None => (s, None)
      | Some [] => (s, None)
      | Some fs =>
          match from_frames types fs with
          | Err x => (s, Some x)
          | Ok t => recv_transfer fuel s t
          end
      end.

  (** The actions of the scheduler: node.py 370-376 ([_send_node_status]; the
      two clock readings of [_fill_node_status] only give the uptime and are
      not modelled), user tasks, 476-485 ([on_timeout]). *)
  Definition nexec (e : event nact) (now : Z) (s : node) : node * option exn :=
    match ev_act e with
    | AStatus p =>
        let s := nenter s (ev_time e + p) 0 (AStatus p) in
        if anonymous s then (s, None)
        else broadcast s status_dt (status (n_log s)) None None
    | ATask h =>
        let (s, r) := react (see s (OTask h now)) in (s, error_of r)
    | AEvery h p =>
        let ev := n_seq s in
        let s := nenter s (ev_time e + p) 0 (AEvery h p) in
        let s := set_holders s (dset Nat.eqb (n_holders s) h ev) (n_tasks s) in
        let (s, r) := react (see s (OTask h now)) in (s, error_of r)
    | ATimeout r k =>
        let s := set_pending s (ddel key_eqb (n_requests s) k) (ddel key_eqb (n_callbacks s) k) in
        let (s, r) := react (see s (OTimeout r now)) in (s, error_of r)
    end.

  Definition npop (s : node) : node := set_queue s (tl (n_queue s)) (n_seq s).

  Definition npoll (fuel : nat) (s : node) : node * res Z :=
    match run n_queue npop nread nexec fuel s with
    | (s, Remaining t) => let (now, s) := nread s in (s, Ok (t + now))
    | (s, Empty) => (snd (nread s), Err TypeError)
    | (s, Raised x) => (s, Err x)
    | (s, OutOfFuel) => (s, Err RuntimeError)
    end.

  (** node.py 240-294: the constructor: the periodic status broadcast and the
      [GetNodeInfo] handler (number 0; type [info]). *)
  Definition new_node (id : option N) (canfd catch : bool) (interval : Z) (info : typeid) : node :=
    Node id canfd catch new_manager [] [] []
      [Event (clk 0%nat + interval) 0 0 (AStatus interval)] 1 [] 0 0
      [[Handler 0 (Some info) false]] 0 1 1 [].

  (** Any use of a node from outside its callbacks. *)
  Inductive ninput :=
  | IOp (op : nop)
  | IFrame (extended : bool) (f : frame)
  | ITransfer (t : rx)
  | IPoll
  | IRead.                                     (* a reading of the clock *)
  Definition apply_input (fuel : nat) (s : node) (i : ninput) : node :=
    match i with
    | IOp op => fst (apply_nop s op)
    | IFrame x f => fst (recv_frame fuel s x f)
    | ITransfer t => fst (recv_transfer fuel s t)
    | IPoll => fst (npoll fuel s)
    | IRead => snd (nread s)
    end.
  Definition node_history (fuel : nat) (s : node) (ins : list ninput) : node :=
    fold_left (apply_input fuel) ins s.

  (** [CAN driver].receive: what the call with number [n] and the given
      timeout returns or raises, after everything that happened so far. *)
  Variable receive : list nobs -> nat -> Z -> res (option (bool * frame)).

  (** node.py 422-435: [execute_once]; [got] collects the frames that the
      driver returned, [n] counts the calls of [receive]. [None] is the
      infinite deadline of [spin(None)]. *)
  Definition execute_once (fuel : nat) (deadline : option Z) (s : node)
      (got : list (bool * frame)) (n : nat) : node * list (bool * frame) * res N :=
    match npoll fuel s with
    | (s, Err x) => (s, got, Err x)
    | (s, Ok next) =>
        let (now, s) := nread s in
        let limit := match deadline with Some d => Z.min next d | None => next end in
        let read_timeout := Z.min (Z.max (limit - now) 0) second in
        match receive (n_log s) n read_timeout with
        | Err x => (s, got, Err x)
        | Ok None => (s, got, Ok 0%N)
        | Ok (Some (x, f)) =>
            match recv_frame fuel s x f with
            | (s, Some e) => (s, got ++ [(x, f)], Err e)
            | (s, None) => (s, got ++ [(x, f)], Ok 1%N)
            end
        end
    end.

  Fixpoint spin_loop (turns fuel : nat) (deadline : option Z) (s : node)
      (got : list (bool * frame)) (n : nat) : node * list (bool * frame) * res unit :=
    match turns with
    | O => (s, got, Err RuntimeError)
    | S turns' =>
        let (now, s) := nread s in
        if match deadline with Some d => now <? d | None => true end then
          match execute_once fuel deadline s got n with
          | (s, got, Err x) => (s, got, Err x)
          | (s, got, Ok _) => spin_loop turns' fuel deadline s got (S n)
          end
        else (s, got, Ok tt)
    end.

  Fixpoint drain (turns fuel : nat) (s : node) (got : list (bool * frame)) (n : nat) (count : N)
      : node * list (bool * frame) * res N :=
    match turns with
    | O => (s, got, Err RuntimeError)
    | S turns' =>
        match receive (n_log s) n 0 with
        | Err x => (s, got, Err x)
        | Ok None => (s, got, Ok count)
        | Ok (Some (x, f)) =>
            match recv_frame fuel s x f with
            | (s, Some e) => (s, got ++ [(x, f)], Err e)
            | (s, None) => drain turns' fuel s (got ++ [(x, f)]) (S n) (count + 1)
            end
        end
    end.

  (** node.py 409-449: [spin]; its result, and the frames the driver gave. *)
  Definition spin (turns fuel : nat) (s : node) (timeout : option Z)
      : node * list (bool * frame) * res N :=
    if match timeout with Some t => t =? 0 | None => false end then
      match drain turns fuel s [] 0 0 with
      | (s, got, Err x) => (s, got, Err x)
      | (s, got, Ok count) =>
          match npoll fuel s with
          | (s, Err x) => (s, got, Err x)
          | (s, Ok _) => (s, got, Ok count)
          end
      end
    else
      let (now, s) := match timeout with
                      | Some _ => nread s
                      | None => (0, s) end in
      let deadline := match timeout with Some t => Some (now + t) | None => None end in
      match execute_once fuel deadline s [] 0 with
      | (s, got, Err x) => (s, got, Err x)
      | (s, got, Ok count) =>
          match spin_loop turns fuel deadline s got 1 with
          | (s, got, Err x) => (s, got, Err x)
          | (s, got, Ok _) => (s, got, Ok count)
          end
      end.
End NodeModel.
