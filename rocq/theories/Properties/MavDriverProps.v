(** The driver for CAN over MAVLink as user code has it: C142 to C145. *)
From Verif.Base Require Import Prelude.
From Verif.Model Require Import CanFrame Packets Mavcan MavDriver.
From Verif.Spec Require Import PacketSpec MavcanSpec MavDriverSpec.
From Verif.Proofs Require Import MavDriverFacts.
From Verif.Properties Require Import PacketProps.
Local Open Scope Z_scope.

(** ** C142 *)

(** The frames of the calls of [send_frame] that returned are written to the
    link in order and once, but for those that wait in the queue; each goes to
    the bus, and is signed with the key, that user code had set when it gave
    the frame, whatever it set later and however often the link was lost. *)
Theorem C142_frames_as_told : forall K sha256 bus target start l, bus_ok bus -> calls_ok l ->
  let s := drv_run K sha256 (drv_new K bus target false start) l in
  exists out rest, frames_told K sha256 bus (m_calls K s) = out ++ rest /\
    Forall2 (as_told K) out (frames_out K (m_log K s)) /\ length rest = waiting K (m_queue K s).
Proof. exact frames_as_told. Qed.
Print Assumptions C142_frames_as_told.
(** When the queue is empty the process has taken over all settings. *)
Theorem C142_settled : forall K sha256 bus target start l,
  let s := drv_run K sha256 (drv_new K bus target false start) l in
  m_queue K s = [] ->
  v_bus (m_mav K s) = bus_told bus (m_calls K s) /\ v_filter (m_mav K s) = filter_told (m_calls K s) /\
  m_conn K s = key_told K sha256 (m_calls K s).
Proof. exact arrived. Qed.
Print Assumptions C142_settled.

(** Here the hash of a passphrase is its length. *)
Definition hash (p : list N) : nat := length p.
Definition pass_a : list N := [97]%N.
Definition pass_b : list N := [97; 98]%N.
Definition md_history : list devent :=
  [ECall (DSend example_frame); ECall (DPass pass_a); ECall (DBus 3); ECall (DSend example_frame); ECall (DPass [200]%N);
   ECall (DPass pass_b); ECall (DBus 0); ETake 10; ETake 20; ERecv 25 LinkLost; ETake 30; ETake 40; ECall (DSend example_frame); ERecv 2000000 NoMessage; ETake 2000001].
Definition md_end := drv_run nat hash (drv_new nat 0 1 false 0) md_history.
Example C142_case : bus_ok 0 /\ calls_ok md_history /\
  map snd (m_calls nat md_end) = [Done; Done; Done; Done; Raised UnicodeError; Done; Raised DriverError; Done] /\
  frames_told nat hash 0 (m_calls nat md_end) = [(None, 0, example_frame); (Some 1%nat, 2, example_frame); (Some 2%nat, 2, example_frame)] /\
  map (fun x => (fst x, mv_bus (snd x))) (frames_out nat (m_log nat md_end)) = [(None, 0%N); (Some 1%nat, 2%N)] /\
  waiting nat (m_queue nat md_end) = 1%nat /\
  m_queue nat (drv_run nat hash md_end [ETake 2000002]) = [].
Proof.
  split; [unfold bus_ok; lia|]. split.
  { intros c J. cbn in J. repeat (destruct J as [J|J]; [try discriminate J; injection J as <-; cbn; try lia; try exact I; try apply example_frame_ok|]). contradiction. }
  vm_compute. repeat split.
Qed.

(** ** C143

    The full statement is: with a passphrase in the environment everything that
    is written to the link is signed. *)

(** It is false: the process asks for forwarding before it has the key. *)
Theorem C143_signed_refuted : exists K (sha256 : list N -> K) p, p <> [] /\ Forall (fun c => (c < 128)%N) p /\
  forall bus target start l, exists y,
    In (None, y) (m_log K (drv_run K sha256 (drv_new K bus target false start) (with_env p l))).
Proof.
  exists nat, hash, pass_a. split; [discriminate|]. split; [repeat constructor|].
  intros bus target start l. exists (Forward target (bus + 1)).
  induction l as [|e l IH] using rev_ind; [left; reflexivity|].
  change (with_env pass_a (l ++ [e])) with (with_env pass_a l ++ [e]). rewrite drv_snoc.
  set (s := drv_run nat hash _ _) in *.
  assert (R : v_readonly (m_mav nat s) = false) by exact (i_ro _ _ _ _ (inv_run nat hash bus target start _)).
  destruct (is_call e) as [(c & ->)|N].
  - destruct (call_cases nat hash s c) as (a & _ & _ & _ & _ & _ & _ & -> & _). exact IH.
  - destruct (process_step nat hash s e R N) as (_ & _ & _ & [(_ & _ & _ & _ & ->)|[(k & q & _ & _ & _ & _ & _ & ->)|(ev & _ & _ & _ & -> & _)]]).
    + exact IH.
    + exact IH.
    + apply in_or_app. left. exact IH.
Qed.
Print Assumptions C143_signed_refuted.
(** Nothing but such requests is not signed, *)
Theorem C143_env_partial : forall K sha256 bus target start p l, p <> [] -> Forall (fun c => (c < 128)%N) p ->
  forall y, In (None, y) (m_log K (drv_run K sha256 (drv_new K bus target false start) (with_env p l))) -> is_forward y.
Proof. exact env_signed. Qed.
Print Assumptions C143_env_partial.
(** and after the first signed message, with a passphrase from wherever, all are
    signed, also over a new connection, with the key of a passphrase that was
    set. *)
Theorem C143_signed_partial : forall K sha256 bus target start l,
  let s := drv_run K sha256 (drv_new K bus target false start) l in
  (forall a x b, m_log K s = a ++ x :: b -> fst x <> None -> Forall (fun y => fst y <> None) b) /\
  (forall k y, In (Some k, y) (m_log K s) -> exists p, In (DPass p, Done) (m_calls K s) /\ k = sha256 p).
Proof.
  intros K sha256 bus target start l s. destruct (all_signed K sha256 bus target start l) as (_ & A & _ & _ & B). exact (conj A B).
Qed.
Print Assumptions C143_signed_partial.
Example C143_case :
  map (fun x => (fst x, match snd x with Forward _ b => Some b | _ => None end))
      (m_log nat (drv_run nat hash (drv_new nat 0 1 false 0)
         (with_env pass_b ([ERecv 2000000 NoMessage; ECall (DFilter (Some [5])); ECall (DSend example_frame); ETake 2000001; ERecv 2000002 LinkLost;
            ETake 2000003; ETake 2000004; ERecv 4000000 NoMessage])))) =
  [(None, Some 1); (None, Some 1); (Some 2%nat, None); (Some 2%nat, Some 1); (Some 2%nat, None)].
Proof. vm_compute. reflexivity. Qed.

(** ** C144

    The full statement is: [get_bus] and [get_filter_list] tell what was set
    last by a call that returned, so the bus on which frames given now go out. *)

(** It is false: when the queue is full, [set_bus] raises and the object holds
    the new bus all the same. The frame given next goes out on the old one. *)
Definition full_queue : list devent := repeat (ECall (DSend example_frame)) 1000.
Definition full_end := Eval vm_compute in drv_run nat hash (drv_new nat 0 1 false 0) (full_queue ++ [ECall (DBus 2); ETake 5; ECall (DSend example_frame)]).
Theorem C144_reported_refuted : exists K (sha256 : list N -> K) l n f,
  let s := drv_run K sha256 (drv_new K 0 1 false 0) l in
  calls_ok l /\ In (DBus n, Full) (m_calls K s) /\ In (DSend f, Done) (m_calls K s) /\
  get_bus K s = n /\ n <> 1 /\ Forall (fun x => snd (fst x) = 0) (frames_told K sha256 0 (m_calls K s)).
Proof.
  exists nat, hash, (full_queue ++ [ECall (DBus 2); ETake 5; ECall (DSend example_frame)]), 2, example_frame.
  cbv zeta. split.
  { intros c J. apply in_app_or in J as [J|J].
    - apply repeat_spec in J. injection J as ->. apply example_frame_ok.
    - clear - J. cbn in J. destruct J as [J|[J|[J|[]]]]; try discriminate J; injection J as <-; [cbn; lia|apply example_frame_ok]. }
  assert (E : drv_run nat hash (drv_new nat 0 1 false 0) (full_queue ++ [ECall (DBus 2); ETake 5; ECall (DSend example_frame)]) = full_end)
    by (vm_compute; reflexivity).
  rewrite E.
  assert (C : m_calls nat full_end = repeat (DSend example_frame, Done) 1000 ++ [(DBus 2, Full); (DSend example_frame, Done)]) by (vm_compute; reflexivity).
  rewrite C. split; [apply in_or_app; right; now left|]. split; [apply in_or_app; right; right; now left|].
  split; [vm_compute; reflexivity|]. split; [lia|].
  assert (T : forallb (fun x => snd (fst x) =? 0) (frames_told nat hash 0 (m_calls nat full_end)) = true) by (vm_compute; reflexivity).
  rewrite C in T. apply Forall_forall. intros x J. apply Z.eqb_eq. exact (proj1 (forallb_forall _ _) T x J).
Qed.
Print Assumptions C144_reported_refuted.
(** It holds as long as none of these calls finds the queue full. *)
Theorem C144_reported_partial : forall K sha256 bus target start l,
  let s := drv_run K sha256 (drv_new K bus target false start) l in
  ((forall n, ~ In (DBus n, Full) (m_calls K s)) -> get_bus K s = bus_told bus (m_calls K s) + 1) /\
  ((forall g, ~ In (DFilter g, Full) (m_calls K s)) -> get_filter_list K s = filter_told (m_calls K s)).
Proof. intros K sha256 bus target start l s. split; [apply reported|apply reported_filter]. Qed.
Print Assumptions C144_reported_partial.
Example C144_case : get_bus nat md_end = 3 /\ (forall n, ~ In (DBus n, Full) (m_calls nat md_end)) /\ bus_told 0 (m_calls nat md_end) = 2.
Proof. split; [vm_compute; reflexivity|]. split; [|vm_compute; reflexivity]. intros n J. vm_compute in J. clear - J. intuition discriminate. Qed.

(** ** C145

    The full statement is: [close] ends the process, frames given before it are
    written first, and it can be called again at any time. *)

(** Frames given before may be left, *)
Theorem C145_frames_refuted : exists K (sha256 : list N -> K) l,
  let s := drv_run K sha256 (drv_new K 0 1 false 0) l in
  m_calls K s = [(DSend example_frame, Done); (DClose, Done)] /\ m_alive K s = false /\ frames_out K (m_log K s) = [].
Proof.
  exists nat, hash, [ECall (DSend example_frame); ECall DClose; ETake 5]. vm_compute. repeat split.
Qed.
Print Assumptions C145_frames_refuted.
(** and a third call raises: nobody takes what the second has put. *)
Theorem C145_again_refuted : exists K (sha256 : list N -> K) l,
  let s := drv_run K sha256 (drv_new K 0 1 false 0) l in
  m_calls K s = [(DClose, Done); (DClose, Done)] /\ m_alive K s = false /\ snd (dcall_step K sha256 s DClose) = Full.
Proof. exists nat, hash, [ECall DClose; ECheck; ECall DClose]. vm_compute. repeat split. Qed.
Print Assumptions C145_again_refuted.
(** The first call returns. The process ends when it looks next, or has to
    connect again, and then nothing is written or received any more. *)
Theorem C145_close_partial : forall K sha256 bus target readonly start l e l2,
  let s := drv_run K sha256 (drv_new K bus target readonly start) l in
  let s1 := drv_run K sha256 s [ECall DClose; e] in
  let s2 := drv_run K sha256 s1 l2 in
  (forall a, ~ In (DClose, a) (m_calls K s)) -> looks e ->
  snd (dcall_step K sha256 s DClose) = Done /\ m_alive K s1 = false /\
  m_log K s2 = m_log K s /\ v_received (m_mav K s2) = v_received (m_mav K s).
Proof.
  intros K sha256 bus target readonly start l e l2 s s1 s2 N L.
  assert (D : snd (dcall_step K sha256 s DClose) = Done) by exact (first_close K sha256 bus target readonly start l N).
  split; [exact D|].
  set (s' := dstep K sha256 s (ECall DClose)). assert (Q : m_quit K s' = true).
  { destruct (call_cases K sha256 s DClose) as (a & _ & _ & _ & _ & _ & _ & _ & _ & _ & _ & Q & _). exact Q. }
  assert (E : s1 = dstep K sha256 s' e) by reflexivity.
  assert (A : m_alive K s1 = false) by (rewrite E; exact (closes K sha256 s' e L Q)).
  split; [exact A|]. destruct (dead_stays K sha256 s1 l2 A) as (E1 & E2). unfold s2. rewrite E1, E2, E.
  destruct (call_cases K sha256 s DClose) as (a & _ & _ & _ & M & _ & _ & Lg & _).
  fold s' in M, Lg. rewrite <- M, <- Lg. clear - L Q.
  destruct e as [c| |now|now [| |]]; try contradiction L; cbn [dstep]; destruct (m_alive K s'); cbn [negb]; rewrite ?Q; auto.
Qed.
Print Assumptions C145_close_partial.
Example C145_case : m_alive nat md_end = true /\ (forall a, ~ In (DClose, a) (m_calls nat md_end)) /\ looks (ERecv 3000000 LinkLost).
Proof. split; [vm_compute; reflexivity|]. split; [|exact I]. intros a J. vm_compute in J. clear - J. intuition discriminate. Qed.
