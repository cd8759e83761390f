(** C160: the ESC nodes found are those that send the status. *)
From Verif.Base Require Import Prelude Bits.
From Verif.Model Require Import Types Codec MsgId Frames TransferManager Sched Node Detect.
From Verif.Spec Require Import CodecSpec NodeSpec MsgIdSpec FrameSpec ReassemblySpec SendingSpec CallSpec StreamSpec.
From Verif.Proofs Require Import RegistryFacts DetectFacts.
From Verif.Properties Require Import NodeProps CallProps StreamProps.
Local Open Scope Z_scope.

(** Node 42 sends three messages and a request, node 6 a message of another
    type before each frame of it, and nothing comes after them. *)
Definition detect_frames : list (bool * frame) :=
  flat_map (fun f => match other_frame with IFrame x g => [(x, g); (true, f)] | _ => [] end) (concat mixed_received).
Definition detect_receive (l : list nobs) (n : nat) (d : Z) : res (option (bool * frame)) := Ok (nth_error detect_frames n).
Definition detect_case (receive : list nobs -> nat -> Z -> res (option (bool * frame))) (t : Z) (esc : typeid) :=
  detect ex_clk stream_beh good_driver (fun _ => ex_value) ex_message mixed_types 1000 receive 60 20 esc t (ran mixed_listener mixed_ins0).

(** Whatever comes in meanwhile, and also if [spin] raises: afterwards the
    handlers are those from before. *)
Theorem C160_kept : forall B receive turns ins esc t s' r,
  (forall l op c, In (op, c) (fst (st_beh B l)) -> keeps_handlers op) -> t <> 0 ->
  detect (st_clk B) (st_beh B) (st_drv B) (st_status B) (st_status_dt B) (st_types B) (st_second B) receive turns (st_fuel B) esc t (ran B ins) = (s', r) ->
  handlers_of s' = handlers_of (ran B ins).
Proof.
  intros B receive turns ins esc t s' r K T H. exact (proj1 (detects B receive turns K (ran B ins) esc t s' r (registry_ran B ins) T H)).
Qed.
Print Assumptions C160_kept.
Example C160_kept_case :
  let s := ran mixed_listener mixed_ins0 in
  let failing l n d := if Nat.eqb n 3 then Err DriverError else detect_receive l n d in
  length (handlers_of s) = 4%nat /\
  snd (detect_case failing 10000 (2000%N, false)) = Err DriverError /\
  handlers_of (fst (detect_case failing 10000 (2000%N, false))) = handlers_of s /\
  handlers_of (fst (detect_case detect_receive 10000 (2000%N, false))) = handlers_of s.
Proof. vm_compute. repeat split. Qed.
Example C160_steady : forall l op c, In (op, c) (fst (st_beh mixed_listener l)) -> keeps_handlers op.
Proof. exact (proj1 C131_mixed_steady). Qed.

(** Each node found: a transfer of the type, from this node, has come in
    meanwhile. *)
Theorem C160_only : forall B receive turns ins esc t s' ns,
  (forall l op c, In (op, c) (fst (st_beh B l)) -> keeps_handlers op) -> t <> 0 ->
  detect (st_clk B) (st_beh B) (st_drv B) (st_status B) (st_status_dt B) (st_types B) (st_second B) receive turns (st_fuel B) esc t (ran B ins) = (s', Ok ns) ->
  forall n, In n ns ->
  exists l hd m, n_log s' = n_log (ran B ins) ++ l /\ In (OHandled hd m) l /\
    (dt_id (rx_datatype m), dt_service (rx_datatype m)) = esc /\ h_source (rx_header m) = n.
Proof.
  intros B receive turns ins esc t s' ns K T H. exact (found B receive turns K (ran B ins) esc t s' ns (registry_ran B ins) T H).
Qed.
Print Assumptions C160_only.
(** Node 6 is not among those that send 2000, and node 42 is not among those
    that send what node 6 does. *)
Example C160_only_case :
  snd (detect_case detect_receive 10000 (2000%N, false)) = Ok [Some 42%N; Some 42%N; Some 42%N] /\
  match snd (detect_case detect_receive 10000 (341%N, false)) with Ok ns => forallb (fun n => match n with Some 6%N => true | _ => false end) ns && negb (Nat.eqb (length ns) 0) | Err _ => false end = true.
Proof. vm_compute. split; reflexivity. Qed.

(** Each node that sends a message of the type is found, whatever else it
    sends and whatever other nodes send between its frames, if all of the
    frames come in. *)
Theorem C160_all : forall B receive turns ins esc t s' ns got c s2 a sds received sd,
  st_catch B = true -> (forall l op c, In (op, c) (fst (st_beh B l)) -> keeps_handlers op) ->
  (S (length (handlers_of (ran B ins))) < st_fuel B)%nat -> t <> 0 ->
  detect (st_clk B) (st_beh B) (st_drv B) (st_status B) (st_status_dt B) (st_types B) (st_second B) receive turns (st_fuel B) esc t (ran B ins) = (s', Ok ns) ->
  spin (st_clk B) (st_beh B) (st_drv B) (st_status B) (st_status_dt B) (st_types B) (st_second B) receive turns (st_fuel B)
    (ran B (ins ++ [IOp (NAddHandler (Some esc) false)])) (Some t) = (s2, got, c) ->
  Forall2 (heard_as (st_types B) a) sds received -> filter (from_node a) (map snd (filter fst got)) = concat received ->
  In sd sds -> is_message sd = true -> (dt_id (s_datatype sd), dt_service (s_datatype sd)) = esc -> In (Some a) ns.
Proof. exact finds. Qed.
Print Assumptions C160_all.
(** The other hypotheses are those of [C131_mixed] and [C160_steady]. *)
Example C160_all_case :
  let r := spin ex_clk stream_beh good_driver (fun _ => ex_value) ex_message mixed_types 1000 detect_receive 60 20
    (ran mixed_listener (mixed_ins0 ++ [IOp (NAddHandler (Some (2000%N, false)) false)])) (Some 10000) in
  st_catch mixed_listener = true /\ (S (length (handlers_of (ran mixed_listener mixed_ins0))) < st_fuel mixed_listener)%nat /\
  is_ok (snd r) = true /\ filter (from_node 42) (map snd (filter fst (snd (fst r)))) = concat mixed_received /\
  map is_message mixed_sds = [true; false; true; true] /\ map (fun sd => (dt_id (s_datatype sd), dt_service (s_datatype sd))) (firstn 1 mixed_sds) = [(2000%N, false)].
Proof. vm_compute. repeat split; lia. Qed.
