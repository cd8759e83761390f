(** Facts about the log message monitor. *)
From Coq Require Import String.
From Verif.Base Require Import Prelude Bits.
From Verif.Model Require Import Types Prim Codec Utf8 MsgId Frames TransferManager Node MavTunnel Canlog LogMonitor.
From Verif.Spec Require Import CodecSpec FrameSpec SendingSpec NodeSpec CallSpec StreamSpec CanlogSpec LogMonitorSpec.
From Verif.Proofs Require Import Utf8Facts NodeFacts NodeDispatch TypedStream CanlogFacts.
Open Scope list_scope.
Local Open Scope N_scope.

Lemma item_bytes_get items : forall bytes, get_bytes items = Some bytes -> item_bytes items = bytes.
Proof.
  induction items as [|v items IH]; intros bytes E; cbn [get_bytes] in E; [injection E as <-; reflexivity|].
  destruct v as [b| | |]; cbn [get_byte] in E; try discriminate. cbn [item_bytes]. destruct (get_int KUint 8 b) as [z|]; [|discriminate].
  cbn [option_map] in E. destruct (get_bytes items) as [bs|]; [|discriminate]. injection E as <-. rewrite (IH bs eq_refl). reflexivity.
Qed.
Lemma digits_right a : a < 128 -> exists x y z, x < 10 /\ y < 10 /\ z < 10 /\ a = 100 * x + 10 * y + z /\ three_digits a = [48 + x; 48 + y; 48 + z].
Proof.
  intros H. exists (a / 100), (a / 10 mod 10), (a mod 10). unfold three_digits.
  replace (a <? 1000) with true by (symmetry; lia). repeat split; lia.
Qed.

Lemma message_logged a b r m : a < 128 -> conveys a b r -> log_type (b_type b) -> says (b_value b) m -> lm_level m < 4 ->
  exists e, on_log_message r = Ok e /\ entry_for a m e.
Proof.
  intros Ha (C1 & C2 & C3 & C4) (k & n & cm & more & rest & Ef & D1 & D2)
    (level & more' & act & vs & act' & Ev & Hne & Hl & (bs & Es & Hs) & (bt & Et & Ht)) Hlt.
  pose proof (data_read 1 _ _ _ _ D1 Hs C4) as R1. pose proof (data_read 2 _ _ _ _ D2 Ht C4) as R2.
  rewrite Ef, Ev in C4. cbn [content map zip_content] in C4.
  destruct (rx_value r) as [| | |us act1] eqn:Er; try discriminate. injection C4 as C4.
  destruct us as [|u us]; [discriminate|]. cbn [zip_content] in C4. injection C4 as C4 _.
  destruct u as [| | |ws act2]; try discriminate. injection C4 as C4. destruct ws as [|w ws]; [discriminate|]. cbn [zip_content] in C4. injection C4 as C4 _.
  destruct w as [lv| | |]; try discriminate. injection C4 as ->.
  cbn [data_in nth_error] in R1, R2.
  destruct us as [|u1 us]; [discriminate|]. destruct u1 as [| |i1|]; try discriminate.
  destruct us as [|u2 us]; [discriminate|]. cbn [nth_error] in R2. destruct u2 as [| |i2|]; try discriminate.
  destruct (digits_right a Ha) as (x & y & z & Hx & Hy & Hz & Ea & Ed).
  eexists. split.
  - unfold on_log_message. rewrite Er. cbn [text_of]. rewrite (item_bytes_get _ _ R1), (item_bytes_get _ _ R2).
    rewrite (utf8_decode_encode _ _ Es), (utf8_decode_encode _ _ Et). cbn [bind]. rewrite C2.
    assert (G : get_int KUint (List.length level) level = Some (Z.of_N (lm_level m))).
    { destruct level; [congruence|]. unfold get_int. rewrite Hl. reflexivity. }
    rewrite G. replace ((0 <=? Z.of_N (lm_level m))%Z && (Z.of_N (lm_level m) <? 4)%Z)%bool with true by (symmetry; lia). rewrite N2Z.id. reflexivity.
  - split; [reflexivity|]. exists x, y, z. cbn [snd]. rewrite Ed. auto 10.
Qed.

Lemma logged_app h l l' : logged h (l ++ l') = logged h l ++ logged h l'.
Proof. unfold logged. apply flat_map_app. Qed.
(** A handler list with the monitor in it once. *)
Lemma logged_all h d hs r e : In (Handler h (Some (d, false)) false) hs -> NoDup (map hd_id hs) -> type_of r = (d, false) ->
  on_log_message r = Ok e -> logged h (to_all hs r) = [e].
Proof.
  intros Hin Hd Ht Ho. unfold to_all, logged.
  assert (Hnone : forall hs, ~ In h (map hd_id hs) ->
    flat_map (fun p : handler * rx => if Nat.eqb (hd_id (fst p)) h then match on_log_message (snd p) with Ok e => [e] | Err _ => [] end else [])
      (map (fun hd => (hd, r)) (filter (fun hd => accepts hd r) hs)) = []).
  { intros l. induction l as [|x l IH]; cbn [map filter]; intros Hn; [reflexivity|].
    destruct (accepts x r); [|apply IH; intros H; apply Hn; right; exact H]. cbn [map flat_map fst snd].
    destruct (Nat.eqb_spec (hd_id x) h) as [E|E]; [exfalso; apply Hn; left; exact E|]. apply IH. intros H. apply Hn. right. exact H. }
  induction hs as [|x hs IH]; [destruct Hin|]. cbn [map] in Hd. inversion Hd as [|? ? Hn Hd']; subst. cbn [filter].
  destruct Hin as [->|Hin].
  - cbn [accepts hd_type]. rewrite Ht. rewrite (proj2 (typeid_eqb_spec _ _) eq_refl). cbn [map flat_map fst snd hd_id].
    rewrite Nat.eqb_refl, Ho, Hnone by exact Hn. reflexivity.
  - destruct (accepts x r); [|apply IH; assumption]. cbn [map flat_map fst snd].
    destruct (Nat.eqb_spec (hd_id x) h) as [E|E]; [|apply IH; assumption].
    exfalso. apply Hn. rewrite E. apply in_map_iff. exists (Handler h (Some (d, false)) false). split; [reflexivity|exact Hin].
Qed.
Lemma all_logged A insA insA1 a d out oks B ins0 ins1 h ms :
  n_id (ran A insA) = Some a -> (1 <= a < 128)%N ->
  leaves_type d (st_beh A) -> dt_id (st_status_dt A) <> d -> Forall (fit (st_types B)) (casts d insA1) ->
  bus (n_log (ran A (insA ++ insA1))) = bus (n_log (ran A insA)) ++ out ->
  outcomes d (n_log (ran A (insA ++ insA1))) = outcomes d (n_log (ran A insA)) ++ oks ->
  st_catch B = true -> steady (st_beh B) ins1 -> (List.length (handlers_of (ran B ins0)) < st_fuel B)%nat -> by_key (st_types B) ->
  Forall2 same_frame (filter (of_type a d) out) (filter (of_type a d) (heard ins1)) ->
  In (Handler h (Some (d, false)) false) (handlers_of (ran B ins0)) -> NoDup (map hd_id (handlers_of (ran B ins0))) ->
  Forall2 (fun b m => log_type (b_type b) /\ says (b_value b) m /\ lm_level m < 4) (those (casts d insA1) oks) ms ->
  exists es, Forall2 (entry_for a) ms es /\
    logged h (filter (said_of a d) (handled (n_log (ran B (ins0 ++ ins1))))) =
    logged h (filter (said_of a d) (handled (n_log (ran B ins0)))) ++ es.
Proof.
  intros Hid Ha Hl Hst Hfit Hbus Hout Hc Hs Hf Hk Hsame Hin Hd Hms.
  destruct (typed_refused A insA insA1 a d out oks B ins0 ins1 Hid Ha Hl Hst Hfit Hbus Hout Hc Hs Hf) as (_ & _ & rs & Hrs & Hh).
  { intros id svc dt E. apply (Hk _ _ _ E). }
  { exact Hsame. }
  rewrite Hh, logged_app.
  assert (Hty : Forall (fun b => type_of_b b = (d, false)) (those (casts d insA1) oks)).
  { apply Forall_forall. intros b Hb. apply those_in in Hb. pose proof (proj1 (Forall_forall _ _) Hfit b Hb) as (_ & _ & Hb3 & _).
    destruct (Hk _ _ _ Hb3) as (_ & K). unfold type_of_b. rewrite K, (casts_id _ _ _ Hb). reflexivity. }
  assert (H : exists es, Forall2 (entry_for a) ms es /\ logged h (flat_map (to_all (handlers_of (ran B ins0))) rs) = es).
  { clear Hh. revert ms Hms. induction Hrs as [|b r bs rs C Hrs IH]; intros ms Hms.
    - inversion Hms. exists []. split; [constructor|reflexivity].
    - inversion Hms as [|b' m bs' ms' (M1 & M2 & M3) Hms']; subst. apply Forall_cons_iff in Hty as (Hty & Htys).
      destruct (IH Htys _ Hms') as (es & Hes & Ees).
      destruct (message_logged a b r m (proj2 Ha) C M1 M2 M3) as (e & Ee & He).
      exists (e :: es). split; [constructor; assumption|]. cbn [flat_map]. rewrite logged_app, Ees.
      rewrite (logged_all h d _ r e Hin Hd); [reflexivity| |exact Ee].
      destruct C as (_ & _ & C3 & _). unfold type_of. rewrite C3. exact Hty. }
  destruct H as (es & H1 & H2). exists es. split; [exact H1|]. rewrite H2. reflexivity.
Qed.
