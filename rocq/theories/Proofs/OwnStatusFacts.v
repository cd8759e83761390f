(** What a node says about itself. *)
From Verif.Base Require Import Prelude Bits.
From Verif.Model Require Import Types Prim Codec MsgId Frames TransferManager Node OwnStatus.
From Verif.Spec Require Import CodecSpec PrimSpec MsgIdSpec FrameSpec ReassemblySpec SendingSpec NodeSpec CallSpec DownloadSpec OwnStatusSpec.
From Verif.Proofs Require Import PrimFacts NodeTop NodeNet NodeCallTop.
Local Open Scope Z_scope.
Local Opaque bits_of_N N_of_bits.

Lemma set_uint n x : (1 <= n <= 64)%nat ->
  exists b, set_int KUint n Saturated x = Ok b /\ length b = n /\
    Z.of_N (N_of_bits b) = Z.max 0 (Z.min x (2 ^ Z.of_nat n - 1)).
Proof.
  intros Hn. destruct (set_get KUint n Saturated x Hn) as (b & E & L & G). exists b. split; [exact E|]. split; [exact L|].
  destruct b as [|b0 b]; [cbn in L; lia|]. cbn [get_int] in G. injection G as G. rewrite G.
  unfold shown. assert (0 < 2 ^ Z.of_nat n) by (apply pow2_pos; lia). repeat dif; lia.
Qed.
Lemma clamp_nearest n x : (1 <= n)%nat -> nearest KUint n x (Z.max 0 (Z.min x (2 ^ Z.of_nat n - 1))).
Proof.
  intros Hn. assert (0 < 2 ^ Z.of_nat n) by (apply pow2_pos; lia).
  unfold nearest, representable. cbn [int_lo int_hi]. split; [lia|]. intros z Hz. lia.
Qed.
Lemma uptime_right second start now : 0 < second -> start <= now ->
  right_uptime second start now (Z.max 0 (Z.min (uptime second start now) (2 ^ Z.of_nat 32 - 1))).
Proof.
  intros Hs Hn. unfold right_uptime, longest. change (2 ^ Z.of_nat 32) with 4294967296. change (2 ^ 32) with 4294967296.
  assert (E : 2 * second * uptime second start now <= 2 * (now - start) + second < 2 * second * uptime second start now + 2 * second).
  { unfold uptime. pose proof (Z.mul_div_le (2 * (now - start) + second) (2 * second) ltac:(lia)).
    pose proof (Z.mul_succ_div_gt (2 * (now - start) + second) (2 * second) ltac:(lia)). lia. }
  set (q := uptime second start now) in *. clearbody q.
  assert (0 <= q) by nia. split; [lia|]. split; intros H'.
  - replace (Z.max 0 (Z.min q (4294967296 - 1))) with q in * by lia. nia.
  - assert (4294967295 <= q) by lia. nia.
Qed.
Lemma uptime_monotone second start now now' : 0 < second -> now <= now' -> uptime second start now <= uptime second start now'.
Proof. intros Hs H. unfold uptime. apply Z.div_le_mono; lia. Qed.

Definition sub_mode_of (v : value) : value := match v with VComp [_; _; _; s; _] _ => s | _ => VVoid end.
Definition as_number (v : value) : Z := match v with VPrim b => Z.of_N (N_of_bits b) | _ => 0 end.

Lemma valid_status v : valid status_type v -> exists u h m s c,
  v = VComp [VPrim u; VPrim h; VPrim m; VPrim s; VPrim c] None /\ length s = 3%nat.
Proof.
  intros V. inversion V as [| | | |fs vs F|]; subst. clear V.
  repeat match goal with H : Forall2 _ _ _ |- _ => inversion H; clear H; subst end.
  repeat match goal with H : valid (TPrim _ _ _) _ |- _ => inversion H; clear H; subst end.
  repeat eexists; assumption.
Qed.

Lemma fill_truth second me now v : 0 < second -> me_start me <= now -> valid status_type v ->
  exists v' s old, fill_node_status second me now v = Ok v' /\ valid status_type v' /\ status_of v' = Some s /\
    truthful second me now s /\ status_of v = Some old /\ seen_sub_mode s = seen_sub_mode old /\
    seen_uptime s = Z.max 0 (Z.min (uptime second (me_start me) now) (2 ^ Z.of_nat 32 - 1)).
Proof.
  intros Hs Hn V. destruct (valid_status v V) as (u0 & h0 & m0 & s0 & c0 & -> & L0).
  destruct (set_uint 32 (uptime second (me_start me) now)) as (u & Eu & Lu & Nu); [lia|].
  destruct (set_uint 2 (me_health me)) as (h & Eh & Lh & Nh); [lia|].
  destruct (set_uint 3 (me_mode me)) as (m & Em & Lm & Nm); [lia|].
  destruct (set_uint 16 (me_code me)) as (c & Ec & Lc & Nc); [lia|].
  eexists _, _, _. split; [unfold fill_node_status; rewrite Eu, Eh, Em, Ec; reflexivity|].
  split. { constructor. repeat (constructor; [constructor; assumption|]). constructor. }
  split; [reflexivity|]. split; [|split; [reflexivity|split; [reflexivity|exact Nu]]].
  unfold truthful. cbn [seen_uptime seen_health seen_mode seen_code]. rewrite Nu, Nh, Nm, Nc.
  split; [apply uptime_right; assumption|]. split; [|split]; apply clamp_nearest; lia.
Qed.
Lemma default_status_valid : valid status_type (default status_type).
Proof. constructor. repeat (constructor; [constructor; reflexivity|]). constructor. Qed.
Lemma status_wf : wf_type status_type.
Proof. cbn. repeat split; lia || discriminate. Qed.

Lemma node_status_truth second me now : 0 < second -> me_start me <= now ->
  exists v s, node_status second me now = Ok v /\ valid status_type v /\ status_of v = Some s /\
    truthful second me now s /\ seen_sub_mode s = 0.
Proof.
  intros Hs Hn. destruct (fill_truth second me now _ Hs Hn default_status_valid) as (v & s & old & E & V & S1 & T & O & Q & _).
  exists v, s. do 4 (split; [assumption|]). rewrite Q.
  assert (E0 : status_of (default status_type) = Some (Seen 0 0 0 0 0)) by (vm_compute; reflexivity).
  rewrite E0 in O. injection O as <-. reflexivity.
Qed.

Lemma status_later second me me' now now' v v' s s' : 0 < second -> me_start me = me_start me' ->
  me_start me <= now -> now <= now' ->
  node_status second me now = Ok v -> status_of v = Some s ->
  node_status second me' now' = Ok v' -> status_of v' = Some s' ->
  seen_uptime s <= seen_uptime s'.
Proof.
  intros Hs Hst Hn Hle E S1 E' S1'.
  destruct (fill_truth second me now _ Hs Hn default_status_valid) as (w & t & ? & F & _ & G & _ & _ & _ & U).
  destruct (fill_truth second me' now' _ Hs ltac:(lia) default_status_valid) as (w' & t' & ? & F' & _ & G' & _ & _ & _ & U').
  unfold node_status in E, E'. rewrite E in F. rewrite E' in F'. injection F as <-. injection F' as <-.
  rewrite S1 in G. rewrite S1' in G'. injection G as <-. injection G' as <-. rewrite U, U', Hst.
  pose proof (uptime_monotone second (me_start me') now now' Hs Hle). lia.
Qed.

(** Equal content, equal looks. *)
Lemma status_content w v s : content status_type w = content status_type v -> status_of v = Some s -> status_of w = Some s.
Proof.
  unfold status_type. cbn [content map zip_content]. intros H E.
  destruct v as [| | |vs a]; try discriminate. do 5 (destruct vs as [|[?| | |] vs]; try discriminate).
  destruct w as [| | |ws a']; try discriminate. cbn [zip_content] in H.
  do 5 (destruct ws as [|[?| | |] ws]; try discriminate).
  injection H as -> -> -> -> ->. exact E.
Qed.
Lemma info_content rest w v s : content (TComp false (status_type :: rest)) w = content (TComp false (status_type :: rest)) v ->
  info_status v = Some s ->
  info_status w = Some s /\ content (TComp false rest) (info_rest w) = content (TComp false rest) (info_rest v).
Proof.
  assert (C : forall st vs a, content (TComp false (status_type :: rest)) (VComp (st :: vs) a) =
    DList (content status_type st :: zip_content (map content rest) vs)) by reflexivity.
  intros H E. destruct v as [| | |[|st vs] a]; try discriminate. rewrite C in H.
  destruct w as [| | |[|st' vs'] a']; try discriminate. rewrite C in H. clear C.
  apply (f_equal (fun d => match d with DList l => l | _ => [] end)) in H. cbv beta iota in H.
  pose proof (f_equal (hd DNone) H) as H1. pose proof (f_equal (@tl data) H) as H2. cbn [hd tl] in H1, H2.
  cbn [info_status info_rest] in *. split; [exact (status_content st' st s H1 E)|].
  cbn [content]. f_equal. exact H2.
Qed.

Lemma info_truth second me now rest info : 0 < second -> me_start me <= now ->
  valid (TComp false (status_type :: rest)) info ->
  exists v s old, on_get_node_info second me now info = Ok v /\ valid (TComp false (status_type :: rest)) v /\
    info_status v = Some s /\ truthful second me now s /\
    info_status info = Some old /\ seen_sub_mode s = seen_sub_mode old /\ info_rest v = info_rest info.
Proof.
  intros Hs Hn V. inversion V as [| | | |fs vs F|]; subst. inversion F as [|t st fs' vs' V1 F1]; subst.
  destruct (fill_truth second me now st Hs Hn V1) as (v & s & old & E & V' & S1 & T & O & Q & _).
  exists (VComp (v :: vs') None), s, old. cbn [on_get_node_info]. rewrite E. split; [reflexivity|].
  split; [constructor; constructor; assumption|]. cbn [info_status info_rest]. auto.
Qed.

Lemma status_heard second me now v h tid fd id crc clk beh drv status status_dt types sec own canfd interval info fuel ins fs pre f earlier :
  0 < second -> me_start me <= now -> node_status second me now = Ok v ->
  let dt := status_datatype id crc in
  let sd := Sending h tid dt v fd in
  legal h -> h_service h = false -> h_dtid h = id -> (crc < 2 ^ 16)%N -> types id false = Some dt ->
  removes_none beh -> adds_none beh -> sent sd fs -> Forall2 same_frame fs (pre ++ [f]) ->
  let s := started clk beh drv status status_dt types sec own canfd true interval info fuel ins in
  let s' := started clk beh drv status status_dt types sec own canfd true interval info fuel (ins ++ [IFrame true f]) in
  filter (has_key (sending_key sd)) (heard ins) = earlier ++ pre ->
  (length (handler_list s (n_cur s)) < fuel)%nat ->
  exists r seen, handled (n_log s') = handled (n_log s) ++
      map (fun hd => (hd, r)) (filter (fun hd => accepts hd r) (handler_list s (n_cur s))) /\
    rx_header r = h /\ rx_datatype r = dt /\
    status_of (rx_value r) = Some seen /\ truthful second me now seen /\ seen_sub_mode seen = 0.
Proof.
  intros Hs Hn E dt sd Hl Hsv Hid Hcrc Hty R A Hsent Hsame s s' Hf Hfu.
  destruct (node_status_truth second me now Hs Hn) as (v' & st & E' & V & So & T & Z0).
  assert (v' = v) by congruence. subst v'.
  assert (P : proper types sd).
  { constructor; cbn [sd s_header s_datatype s_value]; try assumption.
    - rewrite Hsv. exact Hty.
    - unfold transfer_type. rewrite Hsv. exact status_wf.
    - unfold transfer_type. rewrite Hsv. exact V. }
  destruct (transfer_reaches clk beh drv status status_dt types sec own canfd interval info fuel ins sd fs pre f earlier R A P Hsent Hsame)
    as (r & F & H); [left; exact Hsv|exact Hf|exact Hfu|].
  exists r, st. split; [exact H|]. split; [exact (f_header _ _ F)|]. split; [exact (f_datatype _ _ F)|]. split; [|split; assumption].
  apply (status_content _ v); [|exact So]. pose proof (f_content _ _ F) as C. cbn [sd s_header s_datatype s_value] in C.
  unfold transfer_type in C. rewrite Hsv in C. exact C.
Qed.

Lemma info_answered second me now info A B hd id crc rest a dest x :
  0 < second -> me_start me <= now -> valid (TComp false (status_type :: rest)) info -> Forall wf_type rest ->
  let dt := info_datatype id crc rest in
  (id < 256)%N -> (crc < 2 ^ 16)%N -> st_types A id true = Some dt -> st_types B id true = Some dt ->
  (1 <= a < 128 /\ 1 <= dest < 128)%N ->
  calm (st_beh A) -> (forall l fs, st_drv B l fs = None) -> hd_type hd = Some (id, true) -> hd_sniff hd = false ->
  (forall q, st_beh B (n_log (ran B (x_callee x)) ++ [OHandled hd q]) = ([], info_outcome second dt me now info)) ->
  exchanged A B hd dt a dest (VComp [] None) x ->
  exists t s old, answered A dt dest (VComp [] None) x t /\
    info_status (rx_value t) = Some s /\ truthful second me now s /\
    info_status info = Some old /\ seen_sub_mode s = seen_sub_mode old /\
    content (TComp false rest) (info_rest (rx_value t)) = content (TComp false rest) (info_rest info).
Proof.
  intros Hs Hn V W dt Hid Hcrc HA HB [Ha Hd] Hcalm Hdrv Hty Hsn Hbeh
    (X1 & X1' & X2 & X3 & X4 & X5 & X6 & X7 & X8 & X9 & X10 & X11 & X12 & X13 & X14 & X15).
  destruct (info_truth second me now rest info Hs Hn V) as (v & s & old & E & Vv & So & T & O & Q & R).
  destruct (service_call A B (x_before x) (x_between x) (x_callee x) dt (VComp [] None) dest a (x_prio x) (x_timeout x)
    (x_canfd x) hd (fun _ => v) (x_used x) (x_request x) (x_request_pre x) (x_request_last x)
    (x_request_earlier x) (x_reply x) (x_reply_pre x) (x_reply_last x) (x_reply_earlier x))
    as (q & t & l & _ & _ & E1 & E2 & E3 & E4); try assumption.
  - constructor; cbn [dt info_datatype dt_service dt_id dt_crc dt_fields dt_response]; try assumption; try reflexivity.
    + cbn. split; [discriminate|exact I].
    + cbn [wf_type]. split; [discriminate|]. cbn [fold_right]. split; [exact status_wf|].
      clear - W. induction W; cbn [fold_right]; auto.
    + constructor. constructor.
    + intros _ _. exact Vv.
    + split; [exact Ha|split; [exact Hd|exact X1']].
  - intros q _. rewrite Hbeh. unfold info_outcome. rewrite E. reflexivity.
  - cbn [dt info_datatype dt_response] in E2. destruct (info_content rest (rx_value t) v s E2 So) as [I1 I2].
    exists t, s, old. split; [split; [exists l; exact E1|split; [exact E3|exact E4]]|].
    rewrite <- R. auto.
Qed.

Lemma same_status second me now info v w s s' :
  node_status second me now = Ok v -> status_of v = Some s ->
  on_get_node_info second me now info = Ok w -> info_status w = Some s' ->
  seen_uptime s = seen_uptime s' /\ seen_health s = seen_health s' /\ seen_mode s = seen_mode s' /\ seen_code s = seen_code s'.
Proof.
  unfold node_status. change (default status_type) with
    (VComp [VPrim (repeat false 32); VPrim (repeat false 2); VPrim (repeat false 3); VPrim (repeat false 3); VPrim (repeat false 16)] None).
  unfold on_get_node_info. destruct info as [| | |[|st rest] a]; try discriminate.
  intros E So E' So'. apply bind_ok in E' as (st' & F & E'). injection E' as <-. cbn [info_status] in So'.
  unfold fill_node_status in E, F. revert E F.
  destruct (set_int KUint 32 Saturated (uptime second (me_start me) now)) as [u|]; [|discriminate].
  destruct (set_int KUint 2 Saturated (me_health me)) as [h|]; [|discriminate].
  destruct (set_int KUint 3 Saturated (me_mode me)) as [m|]; [|discriminate].
  destruct (set_int KUint 16 Saturated (me_code me)) as [c|]; [|discriminate].
  cbn [bind]. intros E F. injection E as <-. injection So as <-.
  destruct st as [| | |vs a']; try discriminate.
  destruct vs as [|[?| | |] vs]; try discriminate. destruct vs as [|[?| | |] vs]; try discriminate.
  destruct vs as [|[?| | |] vs]; try discriminate. destruct vs as [|sub vs]; try discriminate.
  destruct vs as [|[?| | |] vs]; try discriminate. destruct vs; try discriminate.
  injection F as <-. cbn [status_of] in So'. destruct sub; try discriminate. injection So' as <-. cbn. auto.
Qed.

(** A node that has just been made. *)
Lemma status_new second start mode : 0 < second ->
  exists v, node_status second (new_self start mode) start = Ok v /\
    status_of v = Some (Seen 0 0 (match mode with None => 1 | Some m => Z.min 7 (Z.max 0 m) end) 0 0).
Proof.
  intros H. destruct (node_status_truth second (new_self start mode) start H) as (v & s & E & _ & Es & (U & Hh & Hm & Hc) & Sub); [cbn; lia|].
  exists v. split; [exact E|]. rewrite Es. destruct s as [u h m b c]. cbn [seen_uptime seen_health seen_mode seen_sub_mode seen_code new_self me_start me_health me_mode me_code] in *.
  assert (u = 0).
  { destruct U as (U1 & U2 & U3). unfold longest in *. destruct (Z.eq_dec u (2 ^ 32 - 1)) as [->|N]; [specialize (U3 eq_refl); lia|].
    specialize (U2 ltac:(lia)). destruct (Z.eq_dec u 0) as [|N0]; [assumption|exfalso]. nia. }
  assert (h = 0) by (destruct Hh as (R & Q); specialize (Q 0); unfold representable in *; cbn in R, Q; lia).
  assert (c = 0) by (destruct Hc as (R & Q); specialize (Q 0); unfold representable in *; cbn in R, Q; lia).
  assert (m = match mode with None => 1 | Some m => Z.min 7 (Z.max 0 m) end) by (destruct Hm as (R & Q); specialize (Q (match mode with None => 1 | Some m => Z.min 7 (Z.max 0 m) end)); unfold representable in *; destruct mode; cbn [int_lo int_hi] in R, Q; change (2 ^ Z.of_nat 3) with 8 in *; lia).
  subst. reflexivity.
Qed.
