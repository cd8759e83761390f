(** Service calls over links and bridges. *)
From Verif.Base Require Import Prelude Bits.
From Verif.Model Require Import Types Codec MsgId Frames TransferManager Node FileServer FileNode OwnStatus CanFrame Packets.
From Verif.Spec Require Import CodecSpec MsgIdSpec FrameSpec ReassemblySpec SendingSpec NodeSpec CallSpec DownloadSpec PacketSpec LinkSpec RouteSpec.
From Verif.Proofs Require Import NodeCallTop DownloadFacts PacketFacts LinkFacts RouteFacts.
Local Open Scope Z_scope.

Lemma carried_arrives k fs ins f : carried k fs ins f ->
  exists earlier pre, Forall2 same_frame fs (pre ++ [f]) /\ filter (has_key k) (heard ins) = earlier ++ pre.
Proof.
  intros (traffic & gs & earlier & fs' & Hne & Hs & Hf & Hsame & R & E & Hk).
  exact (arrived k fs earlier fs' traffic gs (heard ins) f Hne (route_same _ _ Hs R) E Hk Hf Hsame).
Qed.

(** The same exchange, with what came before. *)
Definition came (x : exchange) (e pre e' pre' : list frame) : exchange :=
  Exchange (x_before x) (x_between x) (x_callee x) (x_prio x) (x_used x) (x_timeout x) (x_canfd x)
    (x_request x) pre (x_request_last x) e (x_reply x) pre' (x_reply_last x) e'.

Lemma over_exchanged A B hd dt a dest v x : exchanged_over A B hd dt a dest v x ->
  exists e pre e' pre', exchanged A B hd dt a dest v (came x e pre e' pre').
Proof.
  intros (X1 & X2 & X3 & X4 & X5 & X6 & X7 & X8 & X9 & X10 & X11 & X12 & X13 & X14).
  apply carried_arrives in X7 as (e & pre & P1 & P2). apply carried_arrives in X11 as (e' & pre' & Q1 & Q2).
  exists e, pre, e', pre'. unfold exchanged, came.
  cbn [x_before x_between x_callee x_prio x_used x_timeout x_canfd x_request x_request_pre x_request_last x_request_earlier
       x_reply x_reply_pre x_reply_last x_reply_earlier].
  repeat (split; [assumption|]). assumption.
Qed.

Lemma call_over_route : forall A B insA insA2 insB dt v dest a prio timeout fd hd answer p fs fB fs' fA,
  let s0 := ran A insA in
  let call := insA ++ [IOp (NRequest dt v dest prio timeout fd)] in
  let s1 := ran A call in
  let s2 := ran A (call ++ insA2) in
  let s3 := ran A ((call ++ insA2) ++ [IFrame true fA]) in
  let b0 := ran B insB in
  let b1 := ran B (insB ++ [IFrame true fB]) in
  let tid := (N.of_nat (length (attempted (dt_id dt, Some dest) (n_log s0))) mod 32)%N in
  let req := request_head p a dest (dt_id dt) in
  let rsp := response_head p a dest (dt_id dt) in
  callable A B dt a dest p v answer -> asked_priority prio p ->
  calm (st_beh A) -> n_id s0 = Some a ->
  snd (request (st_clk A) (st_drv A) (st_second A) s0 dt v dest prio timeout fd) = None ->
  bus (n_log s1) = bus (n_log s0) ++ fs ->
  (forall l fs, st_drv B l fs = None) -> n_id b0 = Some dest ->
  carried (can_id req, Some tid) fs insB fB ->
  filter (serves (dt_id dt)) (handlers_of b0) = [hd] -> hd_type hd = Some (dt_id dt, true) -> hd_sniff hd = false ->
  (length (handlers_of b0) < st_fuel B)%nat ->
  (forall q, content (dt_fields dt) (rx_value q) = content (dt_fields dt) v ->
     st_beh B (n_log b0 ++ [OHandled hd q]) = ([], Returns (Some (dt, answer (rx_value q))))) ->
  bus (n_log b1) = bus (n_log b0) ++ fs' ->
  carried (can_id rsp, Some tid) fs' (call ++ insA2) fA ->
  (forall r, In r (requests_with dest (dt_id dt) tid (n_log s0)) -> done r (n_log s0)) ->
  (forall r, In r (requests_with dest (dt_id dt) tid (n_log s2)) -> (r <= n_reqs s0)%nat) ->
  ~ done (n_reqs s0) (n_log s2) ->
  exists q t l,
    handled (n_log b1) = handled (n_log b0) ++ [(hd, q)] /\
    content (dt_fields dt) (rx_value q) = content (dt_fields dt) v /\
    n_log s3 = n_log s2 ++ OResponse (n_reqs s0) t :: l /\
    content (dt_response dt) (rx_value t) = content (dt_response dt) (answer (rx_value q)) /\
    responses (n_reqs s0) (n_log s3) = 1%nat /\ timeouts (n_reqs s0) (n_log s3) = 0%nat.
Proof.
  intros A B insA insA2 insB dt v dest a prio timeout fd hd answer p fs fB fs' fA
    s0 call s1 s2 s3 b0 b1 tid req rsp HC Hprio Hcalm Hid Hok Hbus Hdrv Hidb CB Hser Hty Hsn Hfu Hbeh Hbusb CA Hbef Hlat Hnot.
  apply carried_arrives in CB as (e & pre & P1 & P2). apply carried_arrives in CA as (e' & pre' & Q1 & Q2).
  exact (service_call A B insA insA2 insB dt v dest a prio timeout fd hd answer p fs pre fB e fs' pre' fA e'
    HC Hprio Hcalm Hid Hok Hbus Hdrv Hidb P1 P2 Hser Hty Hsn Hfu Hbeh Hbusb Q1 Q2 Hbef Hlat Hnot).
Qed.

Lemma download_over_route : forall isfile abspath contents decode lookup path_map A B hd id crc a dest raw path out data xs,
  file_service isfile abspath contents decode lookup path_map A B hd id crc a dest ->
  (length raw <= 200)%nat -> Forall (fun b => (b < 256)%N) raw ->
  decode raw = Some path -> resolve_path isfile abspath lookup path_map path = Ok out ->
  contents out = Some data -> Forall (fun b => (b < 256)%N) data ->
  (256 * N.of_nat (length xs) <= 2 ^ 40)%N ->
  (forall i x, nth_error xs i = Some x ->
     exchanged_over A B hd (read_type id crc) a dest (asks (256 * N.of_nat i) raw) x) ->
  exists ts chunks, length ts = length xs /\
    (forall i x t, nth_error xs i = Some x -> nth_error ts i = Some t ->
       answered A (read_type id crc) dest (asks (256 * N.of_nat i) raw) x t) /\
    map (fun t => data_of (rx_value t)) ts = map Some chunks /\
    concat chunks = firstn (256 * length xs) data /\
    (chunks <> [] -> (length (last chunks []) < 256)%nat -> concat chunks = data).
Proof.
  intros isfile abspath contents decode lookup path_map A B hd id crc a dest raw path out data xs F Hl Hb Hd Hr Hc Hbytes Hn H.
  assert (K : exists ys, Forall2 (fun x y => exists e pre e' pre', y = came x e pre e' pre') xs ys /\
    forall i y, nth_error ys i = Some y -> exchanged A B hd (read_type id crc) a dest (asks (256 * N.of_nat i) raw) y).
  { clear - H.
    assert (G : forall n, (forall i x, nth_error xs i = Some x ->
       exchanged_over A B hd (read_type id crc) a dest (asks (256 * N.of_nat (n + i)) raw) x) ->
      exists ys, Forall2 (fun x y => exists e pre e' pre', y = came x e pre e' pre') xs ys /\
        forall i y, nth_error ys i = Some y -> exchanged A B hd (read_type id crc) a dest (asks (256 * N.of_nat (n + i)) raw) y).
    { clear H. induction xs as [|x xs IH]; intros n H.
      - exists []. split; [constructor|]. intros [|i] y E; discriminate E.
      - destruct (over_exchanged _ _ _ _ _ _ _ _ (H 0%nat x eq_refl)) as (e & pre & e' & pre' & E).
        destruct (IH (S n)) as (ys & Y1 & Y2).
        { intros i y Hi. replace (S n + i)%nat with (n + S i)%nat by lia. exact (H (S i) y Hi). }
        exists (came x e pre e' pre' :: ys). split; [constructor; [eauto|exact Y1]|].
        intros [|i] y Hy; [injection Hy as <-; exact E|]. replace (n + S i)%nat with (S n + i)%nat by lia. exact (Y2 i y Hy). }
    exact (G 0%nat H). }
  destruct K as (ys & Y1 & Y2).
  assert (Len : length ys = length xs) by (clear - Y1; induction Y1; cbn [length]; congruence).
  destruct (download isfile abspath contents decode lookup path_map A B hd id crc a dest raw path out data ys F Hl Hb Hd Hr Hc Hbytes)
    as (ts & chunks & T1 & T2 & T3 & T4 & T5).
  - rewrite Len. exact Hn.
  - exact Y2.
  - exists ts, chunks. rewrite Len in *. split; [exact T1|]. split; [|auto].
    intros i x t Hx Ht.
    assert (Z : exists y, nth_error ys i = Some y /\ exists e pre e' pre', y = came x e pre e' pre').
    { clear - Y1 Hx. revert i Hx. induction Y1 as [|x0 y0 xs ys Hxy Y1 IH]; intros [|i] Hx; try discriminate Hx.
      - injection Hx as ->. exists y0. split; [reflexivity|exact Hxy].
      - exact (IH i Hx). }
    destruct Z as (y & Hy & e & pre & e' & pre' & ->). exact (T2 i _ t Hy Ht).
Qed.

(** A SocketCAN interface, and a MAVLink connection, at the times when the
    frames are to arrive. *)
Lemma hop_itself fs : Forall sendable fs -> hop fs fs.
Proof.
  intros F. apply hop_socketcan. induction F as [|f fs (Hb & _) F IH]; constructor; [|exact IH].
  destruct (sock_roundtrip f (c_ts f) Hb) as (p & K & g & K' & E). exists p, (c_ts f). split; [exact K|]. rewrite K'.
  f_equal. destruct E as (E1 & E2 & E3 & E4 & E5), f, g; cbn in *; congruence.
Qed.
