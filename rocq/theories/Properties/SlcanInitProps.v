(** Properties of opening and reopening SLCAN adapters: C102 to C104. *)
From Verif.Base Require Import Prelude.
From Verif.Model Require Import Slcan SlcanInit.
From Verif.Spec Require Import SlcanInitSpec.
From Verif.Proofs Require Import SlcanInitFacts.
Local Open Scope N_scope.

(** ** C102 *)

(** Whatever the port does: there are at most four attempts, each writing the
    commands in order with the code of the bit rate; and if the function
    returns, then in the last attempt the commands setting the speed and opening
    the channel were each followed by an acknowledgement. With a bit rate that
    has no code nothing is written. *)
Theorem C102_commands : forall (W : Type) (p : port W) limit bitrate w e w', init_adapter p limit bitrate w = Some (e, w') ->
  exists l, init_adapter (traced p) limit bitrate (w, []) = Some (e, (w', l)) /\
  ((exists d, In (match bitrate with Some r => r | None => 1000000 end, d) rates /\ tries d 4 (wrote l) /\
      (e = Done -> exists a b, l = a ++ b ++ [Dropped] /\ tries d 3 (wrote a) /\ went_well d b)) \/
   (forall d, ~ In (match bitrate with Some r => r | None => 1000000 end, d) rates) /\ e = Failed /\ l = []).
Proof.
  intros W p limit bitrate w e w' E. destruct (init_record p limit bitrate w e w' E) as (l & T). exists l. split; [exact T|].
  assert (S := init_seen p limit bitrate w e w' l T).
  assert (C : speed_code bitrate = speed_code (Some match bitrate with Some r => r | None => 1000000 end)) by (destruct bitrate; reflexivity).
  destruct (speed_code bitrate) as [d|].
  - left. exists d. split; [apply speed_rates; symmetry; exact C|exact S].
  - right. split; [|exact S]. intros d I. apply speed_rates in I. congruence.
Qed.
Print Assumptions C102_commands.

(** A port that takes everything and gives acknowledgements with a stray byte
    now and then; the first time, setting the speed is refused. The state is the
    number of bytes read. *)
Definition script : list got := [Byte 13; Byte 13; Byte 7; Nothing; Byte 65; Byte 7; Byte 66; Byte 13; Byte 67; Byte 13; Nothing].
Definition script_port : port nat := {| p_write := fun _ n => (true, n); p_flush := fun n => (true, n);
  p_read := fun n => (nth n script Fault, S n); p_drop := fun n => (true, n) |}.
Example C102_case : init_adapter script_port 5 (Some 500000) 0%nat = Some (Done, 11%nat) /\
  option_map (fun x => wrote (snd (snd x))) (init_adapter (traced script_port) 5 (Some 500000) (0%nat, [])) =
    Some [[13]; [67; 13]; [83; 54; 13]; [13]; [67; 13]; [83; 54; 13]; [79; 13]; [70; 13]].
Proof. split; vm_compute; reflexivity. Qed.
(** A bit rate without code; and nothing but exceptions: four attempts. *)
Example C102_fails : init_adapter script_port 5 (Some 123) 0%nat = Some (Failed, 0%nat) /\
  option_map (fun x => (fst x, wrote (snd (snd x)))) (init_adapter (traced script_port) 5 None (11%nat, [])) = Some (Failed, [[13]; [13]; [13]; [13]]).
Proof. split; vm_compute; reflexivity. Qed.

(** ** C103

    The full statement is: if the function returns, the channel of the adapter
    is open with the speed asked for. *)

(** It is false if the channel was open before and a frame comes in between:
    the end of the frame is taken for an acknowledgement, so each
    acknowledgement is taken for that of the next command and the refusal to
    open for a failure to clear errors. *)
Theorem C103_traffic_refuted : exists reply traffic h limit a,
  (forall g cmd, ch_open (channel_after g) = false -> traffic g cmd = []) /\
  (forall g cmd, traffic g cmd = [] \/ traffic g cmd = [84; 48; 48; 48; 48; 48; 48; 48; 49; 48; 13]) /\
  (forall g cmd, reply g cmd <> None) /\
  init_adapter (adapter_port reply traffic) limit None {| ad_history := h; ad_sent := [] |} = Some (Done, a) /\
  ch_open (channel_after (ad_history a)) = false.
Proof.
  exists (fun g cmd => Some (negb ((2 <? length g)%nat && match cmd with [79] => true | _ => false end))),
    (fun g cmd => if ch_open (channel_after g) then match cmd with [67] => [84; 48; 48; 48; 48; 48; 48; 48; 49; 48; 13] | _ => [] end else []),
    [([83; 56], Some true); ([79], Some true)], 20%nat. eexists.
  split; [intros g cmd ->; reflexivity|].
  split. { intros g cmd. destruct (ch_open (channel_after g)); [|auto]. destruct cmd as [|x [|y cmd]]; auto; destruct x as [|x]; auto; do 7 (destruct x as [x|x|]; auto). }
  split; [discriminate|]. split; vm_compute; reflexivity.
Qed.
Print Assumptions C103_traffic_refuted.

(** It is also false if one reply comes late. *)
Theorem C103_late_refuted : exists reply traffic limit a,
  (forall g cmd, traffic g cmd <> [] -> traffic g cmd = [13] /\ last g ([], None) = ([67], None)) /\
  init_adapter (adapter_port reply traffic) limit None {| ad_history := []; ad_sent := [] |} = Some (Done, a) /\
  ch_open (channel_after (ad_history a)) = false.
Proof.
  exists (fun _ cmd => match cmd with [67] => None | [79] => Some false | _ => Some true end),
    (fun g cmd => match last g ([], None) with ([67], None) => [13] | _ => [] end), 20%nat. eexists.
  split.
  { intros g cmd. destruct (last g ([], None)) as [c r]. destruct c as [|x [|y c]]; try congruence; destruct x as [|x]; try congruence; do 7 (destruct x as [x|x|]; try congruence); destruct r; try congruence; auto. }
  split; vm_compute; reflexivity.
Qed.
Print Assumptions C103_late_refuted.

(** If acknowledgements and refusals are replies to the last command, except
    before the first one and after the opening of an attempt, then the function
    returns when in one of four attempts the adapter sets the speed and opens the
    channel, the channel is then open with that speed, and otherwise it raises.
    What was in the input before does not matter. *)
Theorem C103_opened_partial : forall reply traffic bitrate d h b, quiet traffic ->
  In (match bitrate with Some r => r | None => 1000000 end, d) rates ->
  exists limit e a fails, (forall n, (limit <= n)%nat -> init_adapter (adapter_port reply traffic) n bitrate {| ad_history := h; ad_sent := b |} = Some (e, a)) /\
    Forall (not_accepted d) fails /\
    ((length fails <= 3)%nat /\ e = Done /\ (exists last, accepted d last /\ ad_history a = h ++ concat fails ++ last) /\
       channel_after (ad_history a) = {| ch_speed := Some d; ch_open := true |} \/
     length fails = 4%nat /\ e = Refused /\ ad_history a = h ++ concat fails).
Proof.
  intros reply traffic bitrate d h b Q I.
  assert (C : speed_code bitrate = Some d) by (apply speed_rates in I; destruct bitrate; exact I).
  destruct (init_runs reply traffic Q bitrate d h b C) as (e & a & fails & (limit & R) & F & [(L & -> & last & A & E)|(L & -> & E & _)]); exists limit.
  - exists Done, a, fails. split; [exact R|]. split; [exact F|]. left. split; [exact L|]. split; [reflexivity|]. split; [eauto|].
    rewrite E, app_assoc. apply channel_accepted. exact A.
  - exists Refused, a, fails. split; [exact R|]. split; [exact F|]. right. auto.
Qed.
Print Assumptions C103_opened_partial.

(** An adapter that is not ready at first, with an open channel and frames
    before the first command and after the opening. *)
Example C103_case :
  let reply (g : history) (cmd : list N) := match cmd with [79] => Some (5 <? length g)%nat | [70] => None | _ => Some true end in
  let traffic (g : history) (cmd : list N) := match cmd with [] => [84; 48; 13; 7; 84] | [70] => [84; 13] | [67] => [48; 49] | _ => [] end in
  quiet traffic /\ exists a, init_adapter (adapter_port reply traffic) 20 (Some 125000) {| ad_history := []; ad_sent := [48; 7] |} = Some (Done, a) /\
    length (ad_history a) = 9%nat /\ channel_after (ad_history a) = {| ch_speed := Some 4; ch_open := true |}.
Proof.
  cbn zeta. split.
  - intros h cmd A B. destruct cmd as [|x [|y cmd]]; [congruence| |cbn; destruct x as [|x]; [cbn; auto|]; do 7 (destruct x as [x|x|]; cbn; auto)].
    destruct x as [|x]; [cbn; auto|]. do 7 (destruct x as [x|x|]; try congruence; cbn; auto); intuition discriminate.
  - eexists. split; [vm_compute; reflexivity|]. split; vm_compute; reflexivity.
Qed.

(** ** C104

    The full statement is: when reading goes on after the port was lost, the
    channel is open. *)

(** It is false: if the adapter is not ready in the four attempts after
    reopening, reading goes on with a closed channel, nothing is written any
    more and nothing is ever received. *)
Theorem C104_reopened_refuted : exists reply traffic limit d, quiet traffic /\ (forall g cmd, (20 <= length g)%nat -> reply g cmd = Some true) /\
  (exists n, retry_read (device_port (adapter_port reply traffic)) device_close device_open limit None n {| dv_adapter := {| ad_history := []; ad_sent := [] |}; dv_open := true; dv_down := 1 |} = Some (None, d)) /\
  ch_open (channel_after (ad_history (dv_adapter d))) = false /\
  forall n lim, retry_read (device_port (adapter_port reply traffic)) device_close device_open lim None n d = Some (None, d).
Proof.
  exists (fun g _ => if (20 <=? length g)%nat then Some true else None), (fun _ _ => []), 20%nat. eexists.
  split; [intros h cmd _ _; cbn; auto|]. split; [intros g cmd L; apply Nat.leb_le in L; now rewrite L|].
  split; [exists 1%nat; vm_compute; reflexivity|]. split; [vm_compute; reflexivity|]. intros n lim. destruct n; reflexivity.
Qed.
Print Assumptions C104_reopened_refuted.

(** If it is ready after nine commands at the latest, then however long the
    port was away, reading returns and the channel is open with the right
    speed. *)
Theorem C104_reopened_partial : forall reply traffic bitrate d, quiet traffic ->
  In (match bitrate with Some r => r | None => 1000000 end, d) rates ->
  (forall h, (9 <= length h)%nat -> reply h [83; 48 + d] = Some true /\ reply h [79] = Some true) ->
  forall a open down, (0 < down)%nat \/ open = false -> exists n limit, forall m lim, (n <= m)%nat -> (limit <= lim)%nat -> exists v a',
    retry_read (device_port (adapter_port reply traffic)) device_close device_open lim bitrate m {| dv_adapter := a; dv_open := open; dv_down := down |}
      = Some (v, {| dv_adapter := a'; dv_open := true; dv_down := 0 |}) /\
    channel_after (ad_history a') = {| ch_speed := Some d; ch_open := true |}.
Proof.
  intros reply traffic bitrate d Q I R. apply (reopened reply traffic Q bitrate d); [|exact R].
  apply speed_rates in I. destruct bitrate; exact I.
Qed.
Print Assumptions C104_reopened_partial.

Example C104_case :
  let reply (g : history) (_ : list N) := if (9 <=? length g)%nat then Some true else None in
  quiet (fun _ _ => []) /\ (forall h, (9 <= length h)%nat -> reply h [83; 48 + 8] = Some true /\ reply h [79] = Some true) /\
  option_map (fun x => (fst x, length (ad_history (dv_adapter (snd x))), channel_after (ad_history (dv_adapter (snd x)))))
    (retry_read (device_port (adapter_port reply (fun _ _ => []))) device_close device_open 5 None 10 {| dv_adapter := {| ad_history := []; ad_sent := [1] |}; dv_open := true; dv_down := 6 |})
    = Some (None, 14%nat, {| ch_speed := Some 8; ch_open := true |}).
Proof. cbn zeta. split; [intros h cmd _ _; cbn; auto|]. split; [intros h L; apply Nat.leb_le in L; now rewrite L|]. vm_compute. reflexivity. Qed.
