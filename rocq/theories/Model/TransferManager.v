(** dronecan/transport.py 882-918: [TransferManager]. *)
From Verif.Base Require Import Prelude.
From Verif.Model Require Import Frames.

Definition key := (N * option N)%type.
Definition key_eqb (a b : key) : bool :=
  N.eqb (fst a) (fst b) &&
  match snd a, snd b with
  | Some x, Some y => N.eqb x y
  | None, None => true
  | _, _ => false
  end.

(** [active_transfers] and [active_transfer_timestamps]. *)
Record manager := Manager {
  m_active : list (key * list frame);
  m_times : list (key * Z)
}.
Definition new_manager : manager := Manager [] [].

(** transport.py 887-906: [receive_frame]; [now] is [time.monotonic()]. *)
Definition receive_frame (m : manager) (f : frame) (now : Z)
    : manager * option (list frame) :=
  let k := transfer_key f in
  if dmem key_eqb (m_active m) k || start_of_transfer f then
    let active := if start_of_transfer f then dset key_eqb (m_active m) k [] else m_active m in
    let fs := match dget key_eqb active k with Some l => l | None => [] end ++ [f] in
    let active := dset key_eqb active k fs in
    let times := dset key_eqb (m_times m) k now in
    if end_of_transfer f then
      (Manager (ddel key_eqb active k) (ddel key_eqb times k), Some fs)
    else (Manager active times, None)
  else (m, None).

(** transport.py 908-914: [remove_inactive_transfers]. The loop runs over the
    live key view of the dictionary: once an entry has been deleted, the next
    step of the iterator raises [RuntimeError] (even if no key is left,
    because the size check comes first). *)
Fixpoint remove_loop (keys : list key) (m : manager) (t timeout : Z) (deleted : bool)
    : manager * res unit :=
  if deleted then (m, Err RuntimeError)
  else
    match keys with
    | [] => (m, Ok tt)
    | k :: keys' =>
        match dget key_eqb (m_times m) k with
        | None => (m, Err KeyError)
        | Some ts =>
            if (timeout <? t - ts)%Z
            then remove_loop keys'
                   (Manager (ddel key_eqb (m_active m) k) (ddel key_eqb (m_times m) k))
                   t timeout true
            else remove_loop keys' m t timeout false
        end
    end.
Definition remove_inactive_transfers (m : manager) (now timeout : Z)
    : manager * res unit :=
  remove_loop (map fst (m_active m)) m now timeout false.
