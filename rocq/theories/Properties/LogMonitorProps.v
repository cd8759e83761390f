(** C139: log messages over the bus. *)
From Coq Require Import String.
From Verif.Base Require Import Prelude Bits.
From Verif.Model Require Import Types Prim Codec Utf8 MsgId Frames TransferManager Node LogMonitor.
From Verif.Spec Require Import CodecSpec NodeSpec MsgIdSpec FrameSpec SendingSpec CallSpec StreamSpec CanlogSpec LogMonitorSpec.
From Verif.Proofs Require Import LogMonitorFacts.
From Verif.Properties Require Import FrameProps NodeProps CallProps StreamProps.
Open Scope list_scope.
Local Open Scope Z_scope.

(** Every log message that node [a] broadcast is given to the logger of the
    monitor, once and in order, at its level, with its source and text, and no
    others of that node are, whatever else both nodes do and hear. Missing:
    levels over 3 and texts that are not UTF-8 ([C139_logged_refuted]). *)
Theorem C139_logged_partial : forall A insA insA1 a d out oks B ins0 ins1 h ms,
  n_id (ran A insA) = Some a -> (1 <= a < 128)%N ->
  leaves_type d (st_beh A) -> dt_id (st_status_dt A) <> d -> Forall (fit (st_types B)) (casts d insA1) ->
  bus (n_log (ran A (insA ++ insA1))) = bus (n_log (ran A insA)) ++ out ->
  outcomes d (n_log (ran A (insA ++ insA1))) = outcomes d (n_log (ran A insA)) ++ oks ->
  st_catch B = true -> steady (st_beh B) ins1 -> (List.length (handlers_of (ran B ins0)) < st_fuel B)%nat -> by_key (st_types B) ->
  Forall2 same_frame (filter (of_type a d) out) (filter (of_type a d) (heard ins1)) ->
  In (Handler h (Some (d, false)) false) (handlers_of (ran B ins0)) -> NoDup (map hd_id (handlers_of (ran B ins0))) ->
  Forall2 (fun b m => log_type (b_type b) /\ says (b_value b) m /\ (lm_level m < 4)%N) (those (casts d insA1) oks) ms ->
  exists es, Forall2 (entry_for a) ms es /\
    logged h (filter (said_of a d) (handled (n_log (ran B (ins0 ++ ins1))))) =
    logged h (filter (said_of a d) (handled (n_log (ran B ins0)))) ++ es.
Proof. exact all_logged. Qed.
Print Assumptions C139_logged_partial.

Definition debug_type := Datatype 16383 false 0xD654
  (TComp false [TComp false [TPrim KUint 3 Saturated]; TArr true (TPrim KUint 8 Saturated) 31; TArr true (TPrim KUint 8 Saturated) 90]) (TComp false []).
Definition debug_types : datatypes := fun id svc => if svc then None else if (id =? 16383)%N then Some debug_type else stream_types id svc.
Definition byte_items (l : list N) : value := VArr (map (fun b => VPrim (bits_of_N 8 b)) l).
Definition debug_value (level : N) (source text : list N) : value :=
  VComp [VComp [VPrim (bits_of_N 3 level)] None; byte_items source; byte_items text] None.
Definition debug_talker := Station ex_clk quiet good_driver (fun _ => ex_value) ex_message debug_types 1000
  (Some 42%N) false true 300 (2%N, true) 20.
Definition debug_listener := Station ex_clk (monitor_outcome 1) good_driver (fun _ => ex_value) ex_message debug_types 1000
  (Some 5%N) false true 300 (2%N, true) 20.
(** A text with a letter of two bytes. *)
Definition debug_source := ascii_codes "gps".
Definition debug_text := ascii_codes "no fix " ++ [0xE9%N].
Definition debug_bytes := ascii_codes "no fix " ++ [0xC3; 0xA9]%N.
Definition debug_sends (levels : list N) : list ninput :=
  flat_map (fun n => [IOp (NBroadcast debug_type (debug_value n debug_source debug_bytes) None None); IPoll;
                      IOp (NBroadcast ex_message ex_value None None)]) levels.
Definition debug_out := Eval vm_compute in new_frames debug_talker [] (debug_sends [3; 0; 2]%N).
Definition debug_ins0 := [IOp (NAddHandler (Some (16383%N, false)) false); IOp (NAddHandler None false)].
Definition debug_ins1 := Eval vm_compute in flat_map (fun f => [IFrame true f; other_frame; IPoll]) debug_out.
Definition debug_ms := map (fun n => LogMessage n debug_source debug_text) [3; 0; 2]%N.
Definition debug_line := ascii_codes "LogMessageMonitor [#042:gps] no fix " ++ [0xE9%N].

Lemma bytes_hold (l : list N) : Forall (fun b => b < 256)%N l -> 
  Forall2 (fun b x => exists w, x = VPrim w /\ List.length w = 8%nat /\ N_of_bits w = b) l (map (fun b => VPrim (bits_of_N 8 b)) l).
Proof.
  induction 1 as [|b l Hb _ IH]; cbn [map]; constructor; [|exact IH].
  exists (bits_of_N 8 b). split; [reflexivity|]. split; [apply bits_of_N_length|]. rewrite N_of_bits_of_N. apply N.mod_small. exact Hb.
Qed.
Lemma bytes_valid (l : list N) mx : (List.length l <= mx)%nat -> valid (TArr true (TPrim KUint 8 Saturated) mx) (byte_items l).
Proof.
  intros H. constructor; [|rewrite map_length; exact H]. apply Forall_forall. intros x Hx. apply in_map_iff in Hx as (b & <- & _).
  constructor. apply bits_of_N_length.
Qed.
Lemma debug_says n : (n < 8)%N -> says (debug_value n debug_source debug_bytes) (LogMessage n debug_source debug_text).
Proof.
  intros Hn. eexists _, _, _, _, _. split; [reflexivity|]. split; [discriminate|]. split; [rewrite N_of_bits_of_N; apply N.mod_small; exact Hn|].
  split.
  - exists debug_source. split; [reflexivity|]. eexists _, _, _. split; [reflexivity|]. split; [reflexivity|].
    apply bytes_hold. repeat (constructor; [reflexivity|]). constructor.
  - exists debug_bytes. split; [reflexivity|]. eexists _, _, _. split; [reflexivity|]. split; [reflexivity|].
    apply bytes_hold. repeat (constructor; [reflexivity|]). constructor.
Qed.
Lemma debug_log_type : log_type debug_type.
Proof. eexists _, _, _, _, _. split; [reflexivity|]. split; eexists _, _, _, _; split; reflexivity. Qed.
Lemma debug_fit n : fit debug_types (Bcast debug_type (debug_value n debug_source debug_bytes) None None).
Proof.
  split; [reflexivity|]. split; [reflexivity|]. split; [reflexivity|]. split; [cbn; repeat split; lia|]. split; [|exact I].
  constructor. constructor; [|constructor; [|constructor; [|constructor]]].
  - constructor. constructor; [|constructor]. constructor. apply bits_of_N_length.
  - apply bytes_valid. cbn. lia.
  - apply bytes_valid. cbn. lia.
Qed.
Lemma debug_steady ins : Forall (fun i => match i with IOp op => keeps_handlers op | ITransfer _ => False | _ => True end) ins ->
  steady (st_beh debug_listener) ins.
Proof.
  intros Hins. split; [|exact (proj1 (Forall_forall _ _) Hins)].
  intros l op c. cbn. unfold monitor_outcome. destruct (last l _); try (intros []); destruct (Nat.eqb _ _); intros [].
Qed.
Lemma debug_by_key : by_key debug_types.
Proof.
  intros id svc dt. unfold debug_types, stream_types. destruct svc; [discriminate|].
  destruct (N.eqb_spec id 16383); [intros E; injection E as <-; subst; split; reflexivity|].
  destruct (N.eqb_spec id 2000); [intros E; injection E as <-; subst; split; reflexivity|].
  destruct (N.eqb_spec id 341); [intros E; injection E as <-; subst; split; reflexivity|discriminate].
Qed.
Example C139_case :
  Forall (fit debug_types) (casts 16383 (debug_sends [3; 0; 2]%N)) /\ steady (st_beh debug_listener) debug_ins1 /\ by_key debug_types /\
  Forall2 (fun b m => log_type (b_type b) /\ says (b_value b) m /\ (lm_level m < 4)%N)
    (those (casts 16383 (debug_sends [3; 0; 2]%N)) [true; true; true]) debug_ms /\
  outcomes 16383 (n_log (ran debug_talker (debug_sends [3; 0; 2]%N))) = [true; true; true] /\
  List.length debug_out = 14%nat /\
  map hd_id (handlers_of (ran debug_listener debug_ins0)) = [0; 1; 2]%nat /\
  logged 1 (filter (said_of 42 16383) (handled (n_log (ran debug_listener (debug_ins0 ++ debug_ins1))))) =
    [(3%N, debug_line); (0%N, debug_line); (2%N, debug_line)].
Proof.
  split; [repeat (constructor; [apply debug_fit|]); constructor|].
  split; [apply debug_steady; repeat constructor|]. split; [exact debug_by_key|].
  split; [repeat (constructor; [split; [exact debug_log_type|split; [apply debug_says; reflexivity|reflexivity]]|]); constructor|].
  vm_compute. repeat split.
Qed.

(** A message of level 5 is not given to the logger. *)
Definition loud_out := Eval vm_compute in new_frames debug_talker [] (debug_sends [5]%N).
Definition loud_ins1 := Eval vm_compute in map (IFrame true) loud_out.
Theorem C139_logged_refuted : exists A insA1 a d out oks B ins0 ins1 h ms,
  (forall l fs, st_drv A l fs = None) /\ n_id (ran A []) = Some a /\ (1 <= a < 128)%N /\
  leaves_type d (st_beh A) /\ dt_id (st_status_dt A) <> d /\ Forall (fit (st_types B)) (casts d insA1) /\
  bus (n_log (ran A insA1)) = out /\ outcomes d (n_log (ran A insA1)) = oks /\
  st_catch B = true /\ steady (st_beh B) ins1 /\ (List.length (handlers_of (ran B ins0)) < st_fuel B)%nat /\ by_key (st_types B) /\
  filter (of_type a d) out = filter (of_type a d) (heard ins1) /\
  In (Handler h (Some (d, false)) false) (handlers_of (ran B ins0)) /\ NoDup (map hd_id (handlers_of (ran B ins0))) /\
  Forall2 (fun b m => log_type (b_type b) /\ says (b_value b) m) (those (casts d insA1) oks) ms /\ ms <> [] /\
  logged h (handled (n_log (ran B (ins0 ++ ins1)))) = [].
Proof.
  exists debug_talker, (debug_sends [5]%N), 42%N, 16383%N, loud_out, [true], debug_listener, debug_ins0, loud_ins1, 1%nat,
    [LogMessage 5 debug_source debug_text].
  split; [reflexivity|]. split; [reflexivity|]. split; [split; reflexivity || discriminate|].
  split; [intros l dt v p c b []|]. split; [discriminate|]. split; [constructor; [apply debug_fit|constructor]|].
  split; [vm_compute; reflexivity|]. split; [vm_compute; reflexivity|]. split; [reflexivity|].
  split; [apply debug_steady; repeat constructor|]. split; [vm_compute; repeat constructor|]. split; [exact debug_by_key|].
  split; [vm_compute; reflexivity|]. split; [vm_compute; tauto|].
  split; [assert (E : map hd_id (handlers_of (ran debug_listener debug_ins0)) = [0; 1; 2]%nat) by (vm_compute; reflexivity); rewrite E; repeat (constructor; [cbn; intuition discriminate|]); constructor|].
  split; [constructor; [split; [exact debug_log_type|apply debug_says; reflexivity]|constructor]|].
  split; [discriminate|]. vm_compute. reflexivity.
Qed.
Print Assumptions C139_logged_refuted.
