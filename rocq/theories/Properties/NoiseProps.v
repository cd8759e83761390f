(** C117: a transfer that cannot be decoded does not disturb the node. *)
From Verif.Base Require Import Prelude Bits.
From Verif.Model Require Import BitCodec Types Codec MsgId Frames TransferManager Node.
From Verif.Spec Require Import NodeSpec NoiseSpec.
From Verif.Proofs Require Import NodeFacts NodeTop NodeNoise.
From Verif.Properties Require Import NodeProps.
Local Open Scope Z_scope.

(** A message of a data type that this node does not know. *)
Definition strange (i : N) : frame := Frame i [7; 0xC0]%N false None None.
Definition hears (fs : list frame) (l : list nobs) (n : nat) (timeout : Z) : res (option (bool * frame)) :=
  match nth_error fs n with Some f => Ok (Some (true, f)) | None => Ok None end.

(** It does: one frame of an unknown type ends [spin] with an exception,
    though the node was told to catch the exceptions of handlers and would
    have heard a request afterwards. *)
Theorem C117_spin_refuted : exists f rest s, unknown ex_types (f_id f) /\
  s = ex_after (Some 5%N) answering good_driver [] /\ n_catch s = true /\
  let r := spin ex_clk answering good_driver (fun _ => ex_value) ex_message ex_types 1000 (hears (f :: rest)) 20 20 s (Some 5000) in
  snd r = Err TransferError /\ handled (n_log (fst (fst r))) = [] /\
  let r' := spin ex_clk answering good_driver (fun _ => ex_value) ex_message ex_types 1000 (hears rest) 20 20 s (Some 5000) in
  is_ok (snd r') = true /\ length (handled (n_log (fst (fst r')))) = 1%nat.
Proof.
  exists (strange 0x1001072A), [Frame 0x030185AA [7; 0xC0]%N false None None], (ex_after (Some 5%N) answering good_driver []).
  vm_compute. auto 10.
Qed.
Print Assumptions C117_spin_refuted.

(** Apart from the exception it does not: whatever else happens to the node, all
    it ever does is as if the frames had not been heard. *)
Theorem C117_unknown_partial : forall clk beh drv status status_dt types second id canfd catch interval info fuel ins noise,
  (forall i, noise i = true -> unknown types i) ->
  n_log (started clk beh drv status status_dt types second id canfd catch interval info fuel ins) =
  n_log (started clk beh drv status status_dt types second id canfd catch interval info fuel (map (unheard noise) ins)).
Proof.
  intros clk beh drv status status_dt types second id canfd catch interval info fuel ins noise U. unfold started.
  destruct (history_quiet clk beh drv status status_dt types second noise (fun _ => True)
    (fun i fs Z N H => unknown_hopeless types i fs (U i Z) N (Forall_impl _ (fun f p => proj1 p) H)) fuel (new_node clk id canfd catch interval info) ins
    (fun f _ => I) eq_refl) as (m & ->).
  reflexivity.
Qed.
Print Assumptions C117_unknown_partial.

(** The same for a source of frames none of which make a good transfer, for
    instance because it has another definition of the data type. *)
Theorem C117_undecodable_partial : forall clk beh drv status status_dt types second id canfd catch interval info fuel ins (noise : N -> bool),
  (forall i fs, noise i = true -> fs <> [] -> Forall (fun f => f_id f = i /\ In (IFrame true f) ins) fs -> exists x, from_frames types fs = Err x) ->
  n_log (started clk beh drv status status_dt types second id canfd catch interval info fuel ins) =
  n_log (started clk beh drv status status_dt types second id canfd catch interval info fuel (map (unheard noise) ins)).
Proof.
  intros clk beh drv status status_dt types second id canfd catch interval info fuel ins noise U. unfold started.
  destruct (history_quiet clk beh drv status status_dt types second noise (fun f => In (IFrame true f) ins) U fuel
    (new_node clk id canfd catch interval info) ins (fun f H => H) eq_refl) as (m & ->).
  reflexivity.
Qed.
Print Assumptions C117_undecodable_partial.

Definition noisy (i : N) : bool := (i =? 0x1001072A)%N || (i =? 0x030985AA)%N.
Example C117_case :
  let ins := [ex_request None None; IFrame true (strange 0x1001072A); ex_incoming 1; IPoll;
    IFrame true (Frame 0x030985AA [1; 2; 3; 4; 5; 6; 7; 0x80]%N false None None); ex_response 0; IPoll] in
  unknown ex_types 0x1001072A /\ unknown ex_types 0x030985AA /\
  map (unheard noisy) ins = [ex_request None None; IRead; ex_incoming 1; IPoll; IRead; ex_response 0; IPoll] /\
  length (handled (n_log (ex_after (Some 5%N) answering good_driver ins))) = 1%nat /\
  responses 0 (n_log (ex_after (Some 5%N) answering good_driver ins)) = 1%nat /\
  (* A short message of a known type cannot be decoded either. *)
  from_frames ex_types [Frame 0x10015505 [0xC0]%N false None None] = Err ValueError /\
  n_manager (ex_after (Some 5%N) answering good_driver ins) <> n_manager (ex_after (Some 5%N) answering good_driver (map (unheard noisy) ins)).
Proof. vm_compute. repeat split; try reflexivity. discriminate. Qed.
