(** C134: converting a recorded log. *)
From Verif.Base Require Import Prelude Bits.
From Verif.Model Require Import Types Prim Codec MsgId Frames TransferManager Node CanFrame FileLog Canlog.
From Verif.Spec Require Import CodecSpec NodeSpec MsgIdSpec FrameSpec SendingSpec CallSpec StreamSpec LogSpec LinkSpec CanlogSpec.
From Verif.Proofs Require Import LogFacts CanlogFacts.
From Verif.Properties Require Import FrameProps NodeProps CallProps StreamProps LogProps.
Local Open Scope Z_scope.

(** The program gives the frames of the log to its node in order, the next one
    each time, and does nothing else; when it says that the stream has ended,
    it has given them all, also if the log was cut off within a header. *)
Theorem C134_reads : forall clk status status_dt types second node_info pos d tick interval info fuel f fs tail turns loops now s o,
  Forall loggable (f :: fs) -> (length tail < 20)%nat ->
  convert clk status status_dt types second node_info pos (recorded (f :: fs) ++ tail) d tick interval info fuel turns loops now = (s, o) ->
  exists ins k, s = ran (converter clk status status_dt types second node_info pos interval info fuel)
                      (IOp (NAddHandler (Some (d, false)) false) :: ins) /\ just_spins ins /\
    frames_in ins = firstn k (map (fun g => (c_ext g, as_heard g)) (shifted now (f :: fs))) /\
    (o = Some (Ok tt) -> k = length (f :: fs)).
Proof. intros. eapply converts; eassumption. Qed.
Print Assumptions C134_reads.

(** It ends: each round of its loop reads at least one record. *)
Theorem C134_ends : forall clk status status_dt types second node_info pos d tick interval info fuel f fs tail turns loops now s o,
  Forall loggable (f :: fs) -> (length tail < 20)%nat ->
  convert clk status status_dt types second node_info pos (recorded (f :: fs) ++ tail) d tick interval info fuel turns loops now = (s, o) ->
  (length (f :: fs) + 2 <= loops)%nat -> o <> None.
Proof. intros until o. intros F T E. destruct (converts _ _ _ _ _ _ _ _ _ _ _ _ _ _ _ _ _ _ _ _ F T E) as (_ & H). exact H. Qed.
Print Assumptions C134_ends.

(** What node [a] broadcast is what is written: the data of the messages, in
    order, each once, and nothing else, whatever other nodes sent. Missing:
    logs with a transfer that cannot be decoded, on which the program ends with
    an exception ([C134_output_refuted]). *)
Theorem C134_output_partial : forall clk status status_dt types second node_info pos tick interval info fuel turns loops now s tail
    A insA insA1 a d gs blocks,
  on_record types pos A insA insA1 a d gs blocks -> (length tail < 20)%nat ->
  by_key types -> snd info = true -> (2 < fuel)%nat ->
  convert clk status status_dt types second node_info (Some pos) (recorded gs ++ tail) d tick interval info fuel turns loops now = (s, Some (Ok tt)) ->
  written (Some pos) (n_log s) = concat blocks.
Proof. exact output_on_record. Qed.
Print Assumptions C134_output_partial.

(** The broadcasts of [refuse_talker], of which the driver refuses some frames,
    among messages of another node. *)
Definition canlog_run (types : datatypes) (content : list N) :=
  convert ex_clk (fun _ => ex_value) ex_message types 1000 None (Some 0%nat) content 2000 1 100000 (2%N, true) 20 1000 1000 77.
Definition canlog_gs := Eval vm_compute in
  flat_map (fun f => [given 3 f; CFrame 0x03015506 [7; 0xC3]%N true false 9]) refuse_out ++ [CFrame 0x105 [1; 2]%N false false 12].
Definition canlog_blocks := [repeat 7%N 10; repeat 10%N 10].
Lemma canlog_holds n : holds 0 (long_value n) (repeat (N_of_bits (bits_of_N 8 n)) 10).
Proof.
  eexists _, _, _. split; [reflexivity|]. split; [reflexivity|]. 
  repeat (constructor; [eexists; split; [reflexivity|split; reflexivity]|]). constructor.
Qed.
Lemma canlog_fit ns : Forall (fun n => n < 256)%N ns -> forall types, types 2000%N false = Some long_message ->
  Forall (fit types) (map (fun n => Bcast long_message (long_value n) None None) ns).
Proof.
  intros _ types Ht. apply Forall_forall. intros b Hb. apply in_map_iff in Hb as (n & <- & _).
  split; [cbn; lia|]. split; [cbn; lia|]. split; [exact Ht|]. split; [cbn; repeat split; lia|]. split; [|exact I].
  constructor. constructor; [|constructor]. constructor; [|rewrite repeat_length; lia].
  apply Forall_forall. intros x Hx. apply repeat_spec in Hx. subst x. constructor. apply bits_of_N_length.
Qed.
Lemma canlog_on_record types gs : types 2000%N false = Some long_message -> Forall loggable gs -> gs <> [] -> only_speaker 42 2000 gs ->
  Forall2 same_frame (filter (of_type 42 2000) refuse_out) (filter (of_type 42 2000) (map as_heard (filter c_ext gs))) ->
  on_record types 0 refuse_talker busy_insA refuse_insA1 42 2000 gs canlog_blocks.
Proof.
  intros Ht Hl Hn Ho Hs. destruct C131_refused_case as (R1 & R2 & R3 & R4 & _ & _ & R7 & _).
  split; [exact R2|]. split; [split; reflexivity || discriminate|]. split; [discriminate|]. split; [exact R1|]. split; [discriminate|].
  split; [exact (canlog_fit [7; 8; 9; 10; 11]%N ltac:(repeat constructor) types Ht)|].
  split; [exact Hl|]. split; [exact Hn|]. split; [exact Ho|].
  exists refuse_out, refuse_oks. split; [exact R4|]. split; [exact R3|]. split; [exact Hs|]. rewrite R7.
  assert (D : data_field 0 long_message) by (eexists _, _, _, _; split; reflexivity).
  repeat (constructor; [split; [exact D|apply canlog_holds]|]). constructor.
Qed.
Ltac all_loggable :=
  repeat (constructor; [split; [reflexivity|split; [repeat (constructor; [reflexivity|]); constructor|split; [reflexivity|split; [discriminate|reflexivity]]]]|]);
  constructor.
Ltac one_speaker :=
  match goal with |- only_speaker ?a ?d ?l =>
    assert (F : Forall (fun g => of_type (c_id g mod 128) d (as_heard g) = true -> (c_id g mod 128 = a)%N) l)
      by (repeat (constructor; [vm_compute; first [reflexivity|discriminate]|]); constructor);
    intros g Hg _; exact (proj1 (Forall_forall _ _) F g Hg) end.
Definition canlog_recorded := Eval vm_compute in recorded canlog_gs.
Example C134_case :
  on_record stream_types 0 refuse_talker busy_insA refuse_insA1 42 2000 canlog_gs canlog_blocks /\ by_key stream_types /\
  length canlog_gs = 19%nat /\
  snd (canlog_run stream_types (recorded canlog_gs ++ [0x34; 0x29]%N)) = Some (Ok tt) /\
  written (Some 0%nat) (n_log (fst (canlog_run stream_types (recorded canlog_gs ++ [0x34; 0x29]%N)))) = concat canlog_blocks.
Proof.
  split.
  { apply canlog_on_record; [reflexivity| |discriminate| |].
    - unfold canlog_gs. all_loggable.
    - unfold canlog_gs. one_speaker.
    - vm_compute. repeat constructor. }
  split.
  { intros id svc dt. unfold stream_types. destruct svc; [discriminate|].
    destruct (N.eqb_spec id 2000); [intros E; injection E as <-; subst; split; reflexivity|].
    destruct (N.eqb_spec id 341); [intros E; injection E as <-; subst; split; reflexivity|discriminate]. }
  change (recorded canlog_gs) with canlog_recorded. vm_compute. repeat split.
Qed.

(** A message of a type that is not known, in the middle of the log: the
    program ends there with an exception, and what was broadcast after it is
    not written. *)
Definition canlog_unknown : list cframe :=
  firstn 4 canlog_gs ++ [CFrame 0x0303E706 [1; 0xC0]%N true false 9] ++ skipn 4 canlog_gs.
Theorem C134_output_refuted : exists clk status status_dt types second node_info pos tick interval info fuel turns loops now
    A insA insA1 a d gs blocks,
  on_record types pos A insA insA1 a d gs blocks /\ by_key types /\ snd info = true /\ (2 < fuel)%nat /\ (length gs + 2 <= loops)%nat /\
  let out := convert clk status status_dt types second node_info (Some pos) (recorded gs) d tick interval info fuel turns loops now in
  snd out = Some (Err TransferError) /\
  exists first others, blocks = first :: others /\ written (Some pos) (n_log (fst out)) = first /\ concat others <> [].
Proof.
  exists ex_clk, (fun _ => ex_value), ex_message, stream_types, 1000, None, 0%nat, 1, 100000, (2%N, true), 20%nat, 100%nat, 100%nat, 77,
    refuse_talker, busy_insA, refuse_insA1, 42%N, 2000%N, canlog_unknown, canlog_blocks.
  split.
  { apply canlog_on_record; [reflexivity| |discriminate| |].
    - unfold canlog_unknown, canlog_gs. cbn [firstn skipn app]. all_loggable.
    - unfold canlog_unknown, canlog_gs. cbn [firstn skipn app]. one_speaker.
    - vm_compute. repeat constructor. }
  split; [apply C134_case|]. split; [reflexivity|]. split; [lia|]. split; [cbn; lia|].
  vm_compute. split; [reflexivity|]. eexists _, _. split; [reflexivity|]. split; [reflexivity|discriminate].
Qed.
Print Assumptions C134_output_refuted.

(** Of a log that was cut off within the data of a record nothing is
    converted. *)
Theorem C134_cut_refuted : forall clk status status_dt types second node_info pos tick interval info fuel turns loops now d gs n k,
  Forall loggable gs -> complete gs n k -> (n <= length (recorded gs))%nat -> (20 <= n - length (recorded (firstn k gs)))%nat ->
  let out := convert clk status status_dt types second node_info pos (firstn n (recorded gs)) d tick interval info fuel turns loops now in
  snd out = Some (Err DriverError) /\ written pos (n_log (fst out)) = [].
Proof. exact cut_off. Qed.
Print Assumptions C134_cut_refuted.
Example C134_cut_case : Forall loggable example_log /\ complete example_log 64 2 /\ (64 <= length (recorded example_log))%nat /\
  (20 <= 64 - length (recorded (firstn 2 example_log)))%nat.
Proof.
  split; [exact example_loggable|]. destruct C45_case as (r & _ & _ & _ & _ & C & _). split; [exact C|]. vm_compute. lia.
Qed.
