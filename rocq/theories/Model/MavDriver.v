(** The object that user code has of a CAN link over MAVLink, the queue to the
    process, and signing (dronecan/driver/mavcan.py 38-67, 107-139, 202-297).
    The process itself is that of Mavcan.v.
    Simplifications: SHA-256 is a parameter; the hooks of [send_frame] and
    reception are in Hooks.v and Mavcan.v; the process finds the queue not
    empty at any time at which it is not. *)
From Verif.Base Require Import Prelude.
From Verif.Model Require Import CanFrame Packets Mavcan.
Local Open Scope Z_scope.

(** What user code calls: [send_frame], [set_filter_list], [set_bus],
    [set_signing_passphrase] with the code points of a text, [close]. *)
Inductive dcall :=
  | DSend (f : cframe)
  | DFilter (ids : option (list Z))
  | DBus (n : Z)
  | DPass (p : list N)
  | DClose.
(** It returns, or raises [queue.Full] or another exception. *)
Inductive danswer := Done | Full | Raised (x : exn).

(** What happens: a call; the process looks at the exit queue (125-131); it
    takes an element of the queue (133-171); one [recv_match] (173-192). *)
Inductive devent :=
  | ECall (c : dcall)
  | ECheck
  | ETake (now : Z)
  | ERecv (now : Z) (r : reception).

(** TX_QUEUE_SIZE *)
Definition tx_queue_size : nat := 1000.

Section MavDriver.
  Variable K : Type.
  Variable sha256 : list N -> K.

  (** 33-36, with the signing key. *)
  Inductive qitem := QItem (i : item) | QKey (k : K).
  (** [m_bus], [m_filter]: of the object. [m_key] is [signing_key] of the
      process and [m_conn] the key its connection signs with. [m_log]: what was
      written to the link, with the key it was signed with. [m_calls]: the
      calls of user code and what became of them. *)
  Record mavdrv := Mavdrv {
    m_bus : Z; m_filter : option (list Z);
    m_queue : list qitem; m_quit : bool; m_alive : bool;
    m_mav : mav; m_key : option K; m_conn : option K;
    m_log : list (option K * sending);
    m_calls : list (dcall * danswer) }.

  (** 285-292: [passphrase_to_key]; None is [UnicodeEncodeError]. *)
  Definition passphrase_to_key (p : list N) : option K :=
    if forallb (fun c => (c <? 128)%N) p then Some (sha256 p) else None.

  (** [tx_queue.put_nowait] *)
  Definition put (s : mavdrv) (x : qitem) : mavdrv * danswer :=
    if (length (m_queue s) <? tx_queue_size)%nat
    then (Mavdrv (m_bus s) (m_filter s) (m_queue s ++ [x]) (m_quit s) (m_alive s) (m_mav s) (m_key s) (m_conn s) (m_log s) (m_calls s), Done)
    else (s, Full).
  Definition set_own (s : mavdrv) (b : Z) (f : option (list Z)) : mavdrv :=
    Mavdrv b f (m_queue s) (m_quit s) (m_alive s) (m_mav s) (m_key s) (m_conn s) (m_log s) (m_calls s).

  (** 224-227, 247-249, 261-264, 270-275, 294-297. The exit queue holds one
      element. *)
  Definition dcall_step (s : mavdrv) (c : dcall) : mavdrv * danswer :=
    match c with
    | DSend f => put s (QItem (Frame f))
    | DFilter ids => put (set_own s (m_bus s) ids) (QItem (FilterList ids))
    | DBus n => if n <=? 0 then (s, Raised DriverError) else put (set_own s (n - 1) (m_filter s)) (QItem (BusNum (n - 1)))
    | DPass p => match passphrase_to_key p with None => (s, Raised UnicodeError) | Some k => put s (QKey k) end
    | DClose =>
        if m_quit s then (s, Full)
        else (Mavdrv (m_bus s) (m_filter s) (m_queue s) true (m_alive s) (m_mav s) (m_key s) (m_conn s) (m_log s) (m_calls s), Done)
    end.

  (** The process goes on with this state; what it has written is signed with
      the key of the connection. *)
  Definition go (s : mavdrv) (q : list qitem) (v : mav) : mavdrv :=
    Mavdrv (m_bus s) (m_filter s) q (m_quit s) (m_alive s) v (m_key s) (m_conn s)
           (m_log s ++ map (pair (m_conn s)) (skipn (length (v_sent (m_mav s))) (v_sent v))) (m_calls s).
  Definition set_keys (s : mavdrv) (q : list qitem) (key conn : option K) : mavdrv :=
    Mavdrv (m_bus s) (m_filter s) q (m_quit s) (m_alive s) (m_mav s) key conn (m_log s) (m_calls s).
  (** The process ends; "QUIT" is taken off the exit queue. *)
  Definition leave (s : mavdrv) : mavdrv :=
    Mavdrv (m_bus s) (m_filter s) (m_queue s) false false (m_mav s) (m_key s) (m_conn s) (m_log s) (m_calls s).

  Definition dstep (s : mavdrv) (e : devent) : mavdrv :=
    match e with
    | ECall c =>
        let (s, a) := dcall_step s c in
        Mavdrv (m_bus s) (m_filter s) (m_queue s) (m_quit s) (m_alive s) (m_mav s) (m_key s) (m_conn s) (m_log s) (m_calls s ++ [(c, a)])
    | _ =>
        if negb (m_alive s) then s
        else
          match e with
          | ECall _ => s
          | ECheck => if m_quit s then leave s else s
          | ETake now =>
              if m_quit s then leave s
              else
                match m_queue s with
                | [] => s
                | QItem i :: q => go s q (take now i (m_mav s))
                | QKey k :: q => if v_readonly (m_mav s) then set_keys s q (m_key s) (m_conn s) else set_keys s q (Some k) (Some k)
                end
          | ERecv now r =>
              match r with
              (* 49-67: the new connection is given the key; "QUIT" ends it *)
              | LinkLost => if m_quit s then leave s else set_keys s (m_queue s) (m_key s) (m_key s)
              | _ => go s (m_queue s) (mav_recv now r (m_mav s))
              end
          end
    end.

  (** 202-222, with [bus] counted from 0, and the process up to line 122. *)
  Definition drv_new (bus target : Z) (readonly : bool) (now : Z) : mavdrv :=
    let v := mav_new bus target readonly now in
    Mavdrv bus None [] false true v None None (map (pair None) (v_sent v)) [].
  Definition drv_run (s : mavdrv) (l : list devent) : mavdrv := fold_left dstep l s.
  (** 219-222: with a passphrase in the environment the constructor sets it. *)
  Definition with_env (p : list N) (l : list devent) : list devent := if (0 <? length p)%nat then ECall (DPass p) :: l else l.

  (** 277-283 *)
  Definition get_bus (s : mavdrv) : Z := m_bus s + 1.
  Definition get_filter_list (s : mavdrv) : option (list Z) := m_filter s.
End MavDriver.
Arguments QItem {K}. Arguments QKey {K}.
